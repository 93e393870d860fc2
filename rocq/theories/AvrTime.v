(** * AvrTime: a background task which comes in time never lets the queue of the AVR run empty

    The stack of AvrStack.v with a clock: every call of the queue has times, and the compare
    events which are due at these times happen before. *)
From Coq Require Import ZArith Bool List Lia ZifyBool.
From Verif Require Import Base RampCalc RampGen RampStep RampRun RampMove RampSafe RampAcc RampUser RampPlan RampDense Queue QueueFacts QueuePos QueueHist QueueProp Stepper StepperHist FrontHist FrontProp FrontFill FrontTask FrontStart FrontMove FrontPause AccessSim AvrIsr AvrStack.
Import ListNotations.
Open Scope Z_scope.
Ltac Zify.zify_post_hook ::= idtac.

(** ** Durations *)
Definition cdur (c : command) : Z := c_ticks c * Z.max 1 (c_steps c).
Fixpoint dsum (cs : list command) : Z := match cs with [] => 0 | c :: cs' => cdur c + dsum cs' end.
Lemma end_dsum : forall cs t, end_time t cs = t + dsum cs.
Proof. induction cs as [|c cs IH]; intros t; cbn [end_time dsum]; [lia|]. rewrite IH. unfold cdur. lia. Qed.
Lemma dsum_app a b : dsum (a ++ b) = dsum a + dsum b.
Proof. induction a as [|c a IH]; cbn [app dsum]; lia. Qed.
Definition c0 : command := mkCommand 0 0 true.
Definition last_ticks (cs : list command) : Z := c_ticks (last cs c0).
Lemma last_cons (c d : command) cs : last (c :: d :: cs) c0 = last (d :: cs) c0.
Proof. reflexivity. Qed.
Lemma last_snoc (cs : list command) c : last (cs ++ [c]) c0 = c.
Proof. apply last_last. Qed.
Lemma dur_ge c m : m <= c_ticks c -> 0 <= m -> m <= cdur c.
Proof. intros. unfold cdur. nia. Qed.

Section WithExt.
Variable EXT : bool.
Notation step := (hstep A EXT).
Notation in_mode := (in_mode EXT).
Notation X := (hacc A EXT).
Notation veff := (veff EXT).

(** ** The clock *)
(** the compare event is due *)
Definition due (x : Z) (v : avr) : bool := v_irq v && (v_next v <=? x).
Fixpoint serve_n (n : nat) (x : Z) (t : vq) : vq :=
  match n with O => t | S k => if due x (vq_v t) then serve_n k x (veff VIsr t) else t end.
(** all events up to time [x]: there is one event for every step or pause in the queue and
    one at the end of the last period *)
Definition serve (x : Z) (t : vq) : vq := serve_n (S (count (rest (v_q (vq_v t))))) x t.

(** the times of one call: of the tests, of the change of the write index and of the start *)
Record vtimes := mkVt { y_0 : Z; y_1 : Z; y_2 : Z }.
(** the queue, the times of the coming calls (none left: the time [wq_fin]), the time of the
    latest event, the end of the pass *)
Record wq := mkWq { wq_t : vq; wq_y : list vtimes; wq_now : Z; wq_fin : Z }.
Definition y1 (w : wq) : vtimes :=
  match wq_y w with [] => mkVt (wq_fin w) (wq_fin w) (wq_fin w) | y :: _ => y end.
(** as [v_add] and [v_null] of AvrStack.v; a refused call has ended at time [y_0] *)
Definition w_add (c : command) (start : bool) (w : wq) : wq * Z :=
  let y := y1 w in
  let t0 := serve (y_0 y) (wq_t w) in
  let code := add_check A true c (v_q (vq_v t0)) in
  if code =? AQE_OK then
    let t2 := serve (y_1 y) (veff (VBegin c start) t0) in
    let t4 := serve (y_2 y) (veff VCommit t2) in
    (mkWq (veff (VStart (y_2 y)) t4) (tl (wq_y w)) (y_2 y) (wq_fin w), code)
  else (mkWq t0 (tl (wq_y w)) (y_0 y) (wq_fin w), code).
Definition w_null (start : bool) (w : wq) : wq * Z :=
  let y := y1 w in
  let t0 := serve (y_0 y) (wq_t w) in
  (mkWq (veff (VNull start (y_0 y)) t0) (tl (wq_y w)) (y_0 y) (wq_fin w),
   a_code (q_add_null true start (v_q (vq_v t0)) (v_pins (vq_v t0)))).
Definition wmap (f : vq -> vq) (w : wq) : wq := mkWq (f (wq_t w)) (wq_y w) (wq_now w) (wq_fin w).
Definition wacc : access wq := {|
  t_q := fun w => v_q (vq_v (wq_t w));
  t_pins := fun w => vq_p (wq_t w);
  t_setpins := fun p => wmap (t_setpins vq (vacc EXT) p);
  t_ignore := fun b => wmap (t_ignore vq (vacc EXT) b);
  t_add := w_add;
  t_null := w_null
|}.
(** the times of the calls of a pass are in order *)
Fixpoint in_time (now : Z) (ys : list vtimes) (fin : Z) : Prop :=
  match ys with
  | [] => now <= fin
  | y :: ys' => now <= y_0 y <= y_1 y /\ y_1 y <= y_2 y /\ in_time (y_2 y) ys' fin
  end.
Lemma in_time_le fin : forall ys now, in_time now ys fin -> now <= fin.
Proof. induction ys as [|y ys IH]; intros now; cbn [in_time]; [auto|]. intros (H1 & H2 & H3). apply IH in H3. lia. Qed.
Lemma in_time_from fin ys now now' : in_time now ys fin -> now' <= now -> in_time now' ys fin.
Proof. destruct ys; cbn [in_time]; intros; [lia|]. intuition lia. Qed.
Lemma in_time_y1 w : in_time (wq_now w) (wq_y w) (wq_fin w) ->
  wq_now w <= y_0 (y1 w) <= y_1 (y1 w) /\ y_1 (y1 w) <= y_2 (y1 w) /\ y_2 (y1 w) <= wq_fin w
  /\ in_time (y_2 (y1 w)) (tl (wq_y w)) (wq_fin w).
Proof.
  unfold y1. destruct (wq_y w) as [|y ys]; cbn [in_time tl y_0 y_1 y_2]; intros H.
  - splits; lia || exact H.
  - destruct H as (H1 & H2 & H3). pose proof (in_time_le _ _ _ H3). splits; lia || auto.
Qed.

(** ** The queue does not run empty before its last period *)
(** the time, at which the queue runs empty *)
Definition last_at (v : avr) : Z := end_time (v_next v) (rest (v_q v)) - last_ticks (rest (v_q v)).
Lemma run_rest v h : in_mode MRun v h -> exists c cs, rest (v_q v) = c :: cs /\ 0 <= c_ticks c /\ 0 <= c_steps c < 256 /\
  rest (v_q (fst (avr_isr v))) =
    (if c_steps c >? 1 then mkCommand (c_ticks c) (c_steps c - 1) (c_up c) :: cs else cs) /\
  v_next (fst (avr_isr v)) = v_next v + c_ticks c /\ q_ignore (v_q (fst (avr_isr v))) = q_ignore (v_q v)
  /\ v_pc (fst (avr_isr v)) = v_pc v.
Proof.
  intros Hm. destruct (hd_in EXT v h Hm) as (t & Hp & Ht & Hrep & He).
  destruct Hm as (Hq & Hpi & Hpc & Hi & Hr & Hpl & H1 & H2 & H3 & H4 & H5 & H6).
  unfold avr_isr.
  assert (Hne : (q_rd (v_q v) =? q_wr (v_q v)) = false).
  { apply Z.eqb_neq. intros K. apply (empty_iff A) in K.
    - apply nonempty_iff in H4. contradiction.
    - rewrite <- Hq. apply (iv_wf A h Hi). }
  rewrite Hne. destruct He as [Het Hes].
  set (e := head A (v_q v)) in *.
  exists (cmd_of 0 e), (map (cmd_of 0) t). unfold rest at 1. rewrite Hp. split; [reflexivity|].
  cbn [cmd_of c_ticks c_steps c_up]. rewrite Z.add_0_l.
  split; [lia|]. split; [lia|].
  destruct (Z.gtb_spec (e_steps e) 1) as [Hs|Hs].
  - cbn [fst v_q v_next v_pc]. split; [|splits; reflexivity].
    assert (En : nonempty (h_q h) = true) by now rewrite Hq.
    destruct (pend_dec h 1 Hi En) as (e' & t' & Hp' & Hh' & Hd').
    rewrite Hq in Hp', Hh', Hd'. fold e in Hh'. subst e'. assert (Et : t' = t) by congruence. subst t'.
    unfold rest. rewrite Hd'. cbn [map]. unfold cmd_of at 1. cbn [e_steps e_ticks e_up].
    f_equal. f_equal. unfold u8. rewrite Z.mod_small; lia.
  - rewrite H3, Hrep.
    destruct (q_rd (q_pop (v_q v)) =? q_wr (q_pop (v_q v))); cbn [fst v_q v_next v_pc];
      (split; [unfold rest; rewrite <- Ht; reflexivity|splits; reflexivity]).
Qed.
Lemma last_run v h : in_mode MRun v h -> v_next v < last_at v ->
  let v' := fst (avr_isr v) in
  rest (v_q v') <> [] /\ last_at v' = last_at v.
Proof.
  intros Hm Hl. destruct (run_rest v h Hm) as (c & cs & E1 & T & S0 & E2 & E3 & _). cbv zeta.
  unfold last_at in *. rewrite E1, E2, E3 in *. rewrite !end_dsum in *.
  destruct (Z.gtb_spec (c_steps c) 1) as [Hs|Hs].
  - split; [discriminate|]. cbn [dsum]. unfold cdur. cbn [c_ticks c_steps].
    assert (L : last_ticks (mkCommand (c_ticks c) (c_steps c - 1) (c_up c) :: cs) = last_ticks (c :: cs)) by (destruct cs; reflexivity).
    rewrite L. rewrite !Z.max_r by lia. lia.
  - assert (D : cdur c = c_ticks c) by (unfold cdur; rewrite Z.max_l by lia; lia).
    destruct cs as [|d cs].
    + exfalso. cbn [dsum] in Hl. unfold last_ticks in Hl. cbn [last] in Hl. lia.
    + split; [discriminate|]. cbn [dsum] in *. unfold last_ticks. rewrite last_cons. lia.
Qed.

(** ** The state of the driver at a time *)
Section Account.
Variable dir : bool -> option bool.
Variable tb : Z.
Variable a0 : list command.
Variable mm : Z.
Hypothesis Hmm : 0 <= mm.
Notation rel_at := (rel_at EXT dir tb a0).
Notation long := (fun c => mm <= c_ticks c).
(** [o]: the queue is running since a time, or not started; [x]: the time; up to the time
    [fin] the queue is not empty *)
Definition common (t : vq) : Prop :=
  vq_ok t = true /\ Forall long (rest (v_q (vq_v t))) /\ q_ignore (v_q (vq_v t)) = false.
Definition SI (o : option Z) (x fin : Z) (t : vq) (h : hst) : Prop :=
  common t /\
  match o with
  | Some s => exists w, rel_at MRun [(s, w)] (vq_v t) (vq_log t) h /\ x < v_next (vq_v t) /\ fin < last_at (vq_v t)
  | None => rel_at MIdle [] (vq_v t) (vq_log t) h /\ tb <= x
  end.
Lemma at_fields m ss v log h : rel_at m ss v log h ->
  h_q h = v_q v /\ h_pins h = v_pins v /\ h_pc h = v_pc v /\ inv A h.
Proof. intros H. apply (rel_fields EXT dir tb a0 v log h). exists m, ss. exact H. Qed.
Lemma SI_fields o x fin t h : SI o x fin t h ->
  h_q h = v_q (vq_v t) /\ h_pins h = v_pins (vq_v t) /\ h_pc h = v_pc (vq_v t) /\ inv A h.
Proof. intros (_ & H). destruct o; [destruct H as (w & H & _)|destruct H as [H _]]; now apply at_fields in H. Qed.
Lemma SI_weaken o x x' fin fin' t h : SI o x fin t h -> fin' <= fin -> (forall s, o = Some s -> x' <= x) -> (o = None -> x <= x') ->
  SI o x' fin' t h.
Proof.
  intros (C & H) Hf H1 H2. split; [exact C|]. destruct o as [s|].
  - destruct H as (w & H & K1 & K2). exists w. specialize (H1 s eq_refl). splits; auto; lia.
  - destruct H as [H K]. specialize (H2 eq_refl). split; [exact H|lia].
Qed.

(** *** compare events *)
Lemma serve_run s fin : forall n x w t h, common t -> rel_at MRun [(s, w)] (vq_v t) (vq_log t) h -> fin < last_at (vq_v t) ->
  x <= fin -> (count (rest (v_q (vq_v t))) < n)%nat ->
  exists evs, SI (Some s) x fin (serve_n n x t) (isr A EXT evs h) /\
    v_pc (vq_v (serve_n n x t)) = v_pc (vq_v t) /\ vq_p (serve_n n x t) = vq_p t.
Proof.
  induction n as [|n IH]; intros x w t h HC HR Hl Hx Hn; [lia|]. cbn [serve_n].
  unfold due. pose proof HR as (Hm & _). pose proof Hm as (_ & _ & _ & Hi & _ & _ & M1 & _).
  rewrite M1. cbn [andb]. destruct (Z.leb_spec (v_next (vq_v t)) x) as [Hd|Hd].
  2:{ exists []. split; [|auto]. split; [exact HC|]. exists w. cbn [isr filter hrun]. auto. }
  destruct (last_run _ _ Hm ltac:(lia)) as [L1 L2].
  destruct (run_rest _ _ Hm) as (c & cs & R1 & R2 & R3 & R4 & R5 & R6 & R7).
  destruct (isr_run_ev EXT _ _ Hm) as (_ & _ & _ & _ & _ & _ & _ & R8 & _).
  destruct (at_isr EXT dir tb a0 _ _ _ _ _ HR) as (evs & m' & HR' & _).
  pose proof HR' as (Hm' & _).
  cbn [vstep] in *. rewrite M1 in *.
  assert (Em : m' = MRun).
  { destruct m'; auto; exfalso.
    - apply L1. eapply drain_rest. exact Hm'.
    - destruct HR' as (_ & (_ & A1 & A2 & A3) & _). cbn [last_end] in A3.
      destruct (isr_run_ev EXT _ _ Hm) as (m2 & ev & _ & K1 & [->|[-> K2]] & _).
      + destruct K1 as (_ & _ & _ & _ & _ & _ & K1 & _). destruct Hm' as (_ & _ & _ & _ & _ & _ & K3 & _). congruence.
      + now apply L1. }
  subst m'. destruct HC as (C1 & C2 & C3).
  assert (HC' : common (veff VIsr t)).
  { unfold common. cbn [AvrStack.veff vq_ok vq_v vstep favourable]. rewrite M1, C1. cbn [andb]. splits; auto; [|congruence].
    rewrite R4, R1 in *. inversion C2; subst. destruct (_ >? 1); [constructor|]; auto. }
  destruct (IH x w (veff VIsr t) (isr A EXT evs h)) as (e2 & K1 & K2 & K3); auto.
  - cbn [AvrStack.veff vq_v vq_log vstep]. rewrite M1. exact HR'.
  - cbn [AvrStack.veff vq_v vstep]. rewrite M1. lia.
  - cbn [AvrStack.veff vq_v vstep]. rewrite M1. lia.
  - exists (evs ++ e2). rewrite isr_app. split; [exact K1|]. rewrite K2, K3. split; [|reflexivity].
    cbn [AvrStack.veff vq_v vstep]. rewrite M1. exact R7.
Qed.
Lemma si_serve o x x' fin t h : SI o x fin t h -> x <= x' <= fin ->
  exists evs, SI o x' fin (serve x' t) (isr A EXT evs h) /\
    v_pc (vq_v (serve x' t)) = v_pc (vq_v t) /\ vq_p (serve x' t) = vq_p t.
Proof.
  intros (HC & H) Hx. destruct o as [s|].
  - destruct H as (w & H & K1 & K2). apply (serve_run s fin _ x' w t h HC H K2); lia.
  - destruct H as (H & K). pose proof H as (Hm & _). destruct Hm as (_ & _ & _ & _ & _ & _ & M1 & _).
    unfold serve. cbn [serve_n]. unfold due. rewrite M1. cbn [andb]. exists []. split; [|auto].
    split; [exact HC|]. split; [exact H|lia].
Qed.

(** *** the pieces of a call *)
Lemma si_begin o x fin t h c start : SI o x fin t h -> cmd_ok c ->
  SI o x fin (veff (VBegin c start) t) (step (EBegin c start true) h).
Proof.
  intros ((C1 & C2 & C3) & H) Hc.
  assert (G : forall m ss, rel_at m ss (vq_v t) (vq_log t) h ->
    rel_at m ss (vq_v (veff (VBegin c start) t)) (vq_log (veff (VBegin c start) t)) (step (EBegin c start true) h)
    /\ common (veff (VBegin c start) t) /\ v_next (vq_v (veff (VBegin c start) t)) = v_next (vq_v t)
    /\ rest (v_q (vq_v (veff (VBegin c start) t))) = rest (v_q (vq_v t))).
  { intros m ss HR. pose proof (at_begin EXT dir tb a0 _ _ _ _ _ c start HR Hc) as HR'.
    pose proof (at_fields _ _ _ _ _ HR) as (F1 & F2 & F3 & F4). pose proof (at_fields _ _ _ _ _ HR') as (G1 & _).
    destruct HR as (Hm & _). destruct (begin_ev EXT m _ h c start Hm Hc) as (K1 & K2 & K3 & _ & _ & _ & _).
    assert (K4 : rest (v_q (vq_v (veff (VBegin c start) t))) = rest (v_q (vq_v t))) by (unfold rest; cbn [AvrStack.veff vq_v]; now rewrite K2).
    splits; auto. unfold common. rewrite K4. splits; auto.
    - cbn [AvrStack.veff vq_ok favourable]. rewrite C1. reflexivity.
    - cbn [AvrStack.veff vq_v]. cbn [vstep]. destruct (v_pc (vq_v t)); auto. destruct (_ =? _); auto.
      cbn [fst v_q]. unfold add_prepare. destruct (direct_dir _); exact C3. }
  destruct o as [s|].
  - destruct H as (w & H & K1 & K2). destruct (G _ _ H) as (G1 & G2 & G3 & G4).
    split; [exact G2|]. exists w. unfold last_at in *. rewrite G3, G4. auto.
  - destruct H as (H & K). destruct (G _ _ H) as (G1 & G2 & G3 & G4). split; [exact G2|]. auto.
Qed.
Lemma end_last t l c : end_time t (l ++ [c]) - last_ticks (l ++ [c]) = end_time t l + cdur c - c_ticks c.
Proof. rewrite end_time_app. unfold last_ticks. rewrite last_snoc. cbn [end_time]. unfold cdur. lia. Qed.
Lemma run_nonempty v h : in_mode MRun v h -> rest (v_q v) <> [].
Proof. intros H. destruct (run_rest v h H) as (c & cs & E & _). rewrite E. discriminate. Qed.
Lemma last_in l : l <> [] -> Forall long l -> mm <= last_ticks l.
Proof.
  intros Hn Hl. destruct (exists_last Hn) as (l' & c & ->). apply Forall_app in Hl as [_ Hl]. inversion Hl; subst.
  unfold last_ticks. now rewrite last_snoc.
Qed.
Lemma si_commit o x fin t h c ne st : SI o x fin t h -> v_pc (vq_v t) = Prepared c ne st -> long c ->
  SI o x fin (veff VCommit t) (step (ECommit true) h) /\ v_pc (vq_v (veff VCommit t)) = Committed st.
Proof.
  intros ((C1 & C2 & C3) & H) Hpc Hc.
  assert (Etk : tk (vq_v t) = [c]) by (unfold tk; rewrite Hpc, C3; reflexivity).
  assert (G : forall m ss, rel_at m ss (vq_v t) (vq_log t) h -> favourable VCommit (vq_v t) = true ->
    common (veff VCommit t) /\ v_next (vq_v (veff VCommit t)) = v_next (vq_v t)
    /\ rest (v_q (vq_v (veff VCommit t))) = rest (v_q (vq_v t)) ++ [c]).
  { intros m ss HR Hf. destruct HR as (Hm & _). destruct (commit_ev EXT m _ h Hm Hf) as (K1 & K2 & _ & K3 & _).
    rewrite Etk in K2. splits; auto. unfold common. cbn [AvrStack.veff vq_v vq_ok]. rewrite K2, C1, Hf. splits; auto.
    - apply Forall_app. split; [exact C2|]. constructor; auto.
    - cbn [vstep]. rewrite Hpc. cbn [fst v_q]. unfold add_commit. rewrite C3. cbn [fst q_ignore]. exact C3. }
  split; [|cbn [AvrStack.veff vq_v vstep]; rewrite Hpc; reflexivity].
  destruct o as [s|].
  - destruct H as (w & H & K1 & K2).
    assert (Hf : favourable VCommit (vq_v t) = true).
    { unfold favourable. rewrite Hpc. destruct H as ((_ & _ & _ & _ & _ & _ & _ & _ & _ & M4 & _) & _). rewrite M4. apply orb_true_r. }
    destruct (G _ _ H Hf) as (G2 & G3 & G4).
    destruct (at_commit EXT dir tb a0 _ _ _ _ _ H Hf) as (ss' & H' & _ & E). specialize (E eq_refl [] s w eq_refl). subst ss'.
    split; [exact G2|]. exists (w ++ tk (vq_v t)). split; [exact H'|]. rewrite G3. split; [exact K1|].
    unfold last_at in *. rewrite G3, G4, end_last. pose proof (last_in _ (run_nonempty _ _ (proj1 H)) C2).
    assert (c_ticks c <= cdur c) by (apply dur_ge; [lia|cbn beta in Hc; lia]). lia.
  - destruct H as (H & K).
    assert (Hf : favourable VCommit (vq_v t) = true).
    { unfold favourable. rewrite Hpc. destruct H as ((_ & _ & _ & _ & _ & _ & _ & M2 & _) & _). rewrite M2. reflexivity. }
    destruct (G _ _ H Hf) as (G2 & G3 & G4).
    destruct (at_commit EXT dir tb a0 _ _ _ _ _ H Hf) as (ss' & H' & E & _). specialize (E eq_refl). subst ss'.
    split; [exact G2|]. split; [exact H'|exact K].
Qed.
(** no start *)
Lemma si_still ev o x fin t h : SI o x fin t h -> match ev with VStart _ | VNull _ _ => True | _ => False end ->
  starts ev (vq_v t) = None ->
  SI o x fin (veff ev t) (step (ev_of ev) h).
Proof.
  intros ((C1 & C2 & C3) & H) He Hs.
  assert (Hf : favourable ev (vq_v t) = true).
  { unfold favourable. unfold starts in Hs. destruct ev as [| |now|start now|]; try contradiction;
      destruct (v_pc (vq_v t)); auto; [destruct (add_starts _ _)|destruct (a_started _)]; auto; discriminate. }
  assert (G : forall m ss, rel_at m ss (vq_v t) (vq_log t) h ->
    rel_at m ss (vq_v (veff ev t)) (vq_log (veff ev t)) (step (ev_of ev) h)
    /\ common (veff ev t) /\ v_next (vq_v (veff ev t)) = v_next (vq_v t) /\ rest (v_q (vq_v (veff ev t))) = rest (v_q (vq_v t))).
  { intros m ss HR. pose proof (at_start EXT dir tb a0 ev _ _ _ _ _ HR He Hf) as HR'. cbv zeta in HR'. rewrite Hs in HR'.
    destruct HR as (Hm & _). destruct (start_ev EXT ev m _ h Hm He Hf) as (K1 & K2 & K3). rewrite Hs in K3.
    destruct K3 as (K3 & K4 & K5). splits; auto; unfold common; cbn [AvrStack.veff vq_v vq_ok]; rewrite K4; auto.
    rewrite C1, Hf. auto. }
  destruct o as [s|].
  - destruct H as (w & H & K1 & K2). destruct (G _ _ H) as (G1 & G2 & G3 & G4).
    split; [exact G2|]. exists w. unfold last_at in *. rewrite G3, G4. auto.
  - destruct H as (H & K). destruct (G _ _ H) as (G1 & G2 & G3 & G4). split; [exact G2|]. auto.
Qed.
Lemma SI_running o x fin t h : SI o x fin t h -> q_running (v_q (vq_v t)) = match o with Some _ => true | None => false end.
Proof.
  intros (_ & H). destruct o as [s|].
  - destruct H as (w & ((_ & _ & _ & _ & _ & _ & _ & M2 & _) & _) & _). exact M2.
  - destruct H as (((_ & _ & _ & _ & _ & _ & _ & M2 & _) & _) & _). exact M2.
Qed.
Lemma no_start o x fin t h start now : SI o x fin t h -> (start = true -> o <> None) ->
  starts (VNull start now) (vq_v t) = None
  /\ (v_pc (vq_v t) = Free \/ v_pc (vq_v t) = Committed start -> starts (VStart now) (vq_v t) = None).
Proof.
  intros H Hs. pose proof (SI_running _ _ _ _ _ H) as Hr. split.
  - unfold starts. destruct (v_pc (vq_v t)); auto. unfold q_add_null. cbn [negb]. rewrite Hr.
    destruct o; destruct start; cbn [andb negb a_started]; auto. exfalso. now apply Hs.
  - intros [E|E]; unfold starts; rewrite E; [reflexivity|]. unfold add_starts. rewrite Hr.
    destruct o; destruct start; cbn [andb negb]; auto. exfalso. now apply Hs.
Qed.
(** the start *)
Lemma si_start x fin t h : SI None x x t h -> v_pc (vq_v t) = Free -> rest (v_q (vq_v t)) <> [] ->
  fin < last_at (vq_v (veff (VNull true x) t)) ->
  SI (Some x) x fin (veff (VNull true x) t) (step (EAddNull true true) h)
  /\ vq_v (veff (VNull true x) t) = avr_start x (vq_v t).
Proof.
  intros ((C1 & C2 & C3) & H & K) Hpc Hn Hl.
  assert (Hst : a_started (q_add_null true true (v_q (vq_v t)) (v_pins (vq_v t))) = true).
  { unfold q_add_null. cbn [negb]. destruct H as ((Hq & _ & _ & Hi & _ & _ & _ & M2 & _) & _). rewrite M2. cbn [andb negb].
    destruct (Z.eqb_spec (q_wr (v_q (vq_v t))) (q_rd (v_q (vq_v t)))) as [E|E]; [|reflexivity].
    exfalso. apply Hn. unfold rest. symmetry in E. apply (empty_iff A) in E; [|rewrite <- Hq; apply (iv_wf A h Hi)].
    apply (pend_nil A) in E. now rewrite E. }
  assert (Es : starts (VNull true x) (vq_v t) = Some x) by (unfold starts; rewrite Hpc, Hst; reflexivity).
  assert (Nx : v_next (vq_v t) = tb) by (destruct H as (_ & (_ & _ & _ & A3) & _); exact A3).
  assert (Ne : nonempty (v_q (vq_v t)) = true).
  { destruct (nonempty (v_q (vq_v t))) eqn:E; [reflexivity|]. exfalso. apply Hn. unfold rest. apply (nonempty_false A) in E. now rewrite E. }
  assert (Hf : favourable (VNull true x) (vq_v t) = true).
  { unfold favourable. rewrite Hpc, Hst, Ne, Nx. cbn [andb]. lia. }
  pose proof (at_start EXT dir tb a0 (VNull true x) _ _ _ _ _ H I Hf) as HR. cbv zeta in HR. rewrite Es in HR.
  destruct HR as (_ & HR). cbn [app ev_of] in HR.
  assert (Ev : vq_v (veff (VNull true x) t) = avr_start x (vq_v t)).
  { cbn [AvrStack.veff vq_v vstep]. rewrite Hpc, Hst. reflexivity. }
  split; [|exact Ev]. split.
  - unfold common. rewrite Ev. cbn [avr_start v_q]. splits; auto. cbn [AvrStack.veff vq_ok]. rewrite C1, Hf. reflexivity.
  - eexists. split; [exact HR|]. split; [|exact Hl]. rewrite Ev. cbn [avr_start v_next]. lia.
Qed.

(** ** The calls of the front end *)
(** since the time [xa]; the pass ends at [f] *)
Definition Rw (o : option Z) (xa f : Z) (w : wq) (th : hq) : Prop :=
  SI o (wq_now w) (wq_fin w) (wq_t w) (hq_h th) /\ v_pc (vq_v (wq_t w)) = Free /\ vq_p (wq_t w) = hq_p th /\
  in_time (wq_now w) (wq_y w) (wq_fin w) /\ xa <= wq_now w /\ wq_fin w = f.
Lemma Rw_fields o xa f w th : Rw o xa f w th -> v_q (vq_v (wq_t w)) = tqueue th /\ good A th /\ vq_p (wq_t w) = hq_p th.
Proof.
  intros (H & Hpc & Hp & _). destruct (SI_fields _ _ _ _ _ H) as (H1 & H2 & H3 & H4).
  split; [symmetry; exact H1|]. split; [|exact Hp]. split; [exact H4|congruence].
Qed.
Lemma Rw_seen o xa f w th : Rw o xa f w th -> seen (v_q (vq_v (wq_t w))) (tqueue th) /\ good A th /\ vq_p (wq_t w) = hq_p th.
Proof. intros H. destruct (Rw_fields _ _ _ _ _ H) as (H1 & H2). split; [now apply seen_eq|exact H2]. Qed.
Lemma Rw_p o xa f p w th : Rw o xa f w th -> Rw o xa f (t_setpins wq wacc p w) (t_setpins hq X p th).
Proof. intros (H1 & H2 & _ & H4). unfold Rw. cbn. splits; tauto. Qed.
Definition fine (c : command) : Prop := cmd_ok c /\ long c.
Lemma isr_nil h : isr A EXT [] h = h.
Proof. reflexivity. Qed.
Lemma veff_nop ev t : vstep EXT ev (vq_v t) = (vq_v t, []) -> favourable ev (vq_v t) = true -> veff ev t = t.
Proof.
  intros E F. unfold AvrStack.veff. rewrite E, F. cbn [fst snd]. rewrite app_nil_r, andb_true_r. destruct t; reflexivity.
Qed.
Lemma sim_wadd o xa f c start w th : Rw o xa f w th -> fine c -> (start = true -> o <> None) ->
  exists ws th', Rw o xa f (fst (w_add c start w)) th' /\ Forall ready ws /\
    forall ws2, h_add A EXT c start (set_w (ws ++ ws2) th) = (set_w ws2 th', snd (w_add c start w)).
Proof.
  intros (H & Hpc & Hp & Ht & Hxa & Hf) [Hc Hlong] Hst. destruct (SI_fields _ _ _ _ _ H) as (Q1 & Q2 & Q3 & Q4).
  destruct (in_time_y1 _ Ht) as ([T1 T2] & T3 & T4 & T5).
  unfold w_add. cbv zeta. set (y := y1 w) in *.
  destruct (si_serve o _ (y_0 y) _ _ _ H ltac:(lia)) as (e0 & H0 & P0 & V0).
  set (t0 := serve (y_0 y) (wq_t w)) in *. rewrite Hpc in P0.
  destruct (SI_fields _ _ _ _ _ H0) as (R1 & _ & R3 & _).
  pose proof (si_begin _ _ _ _ _ c start H0 Hc) as H1.
  destruct (Z.eqb_spec (add_check A true c (v_q (vq_v t0))) AQE_OK) as [Ec|Ec].
  - set (t1 := veff (VBegin c start) t0) in *.
    assert (P1 : exists ne, v_pc (vq_v t1) = Prepared c ne start).
    { unfold t1. cbn [AvrStack.veff vq_v vstep]. rewrite P0, Ec. cbn. eauto. }
    destruct P1 as [ne P1].
    destruct (si_serve o _ (y_1 y) _ _ _ H1 ltac:(lia)) as (e1 & H2 & P2 & V2).
    set (t2 := serve (y_1 y) t1) in *. rewrite P1 in P2.
    destruct (si_commit _ _ _ _ _ c ne start H2 P2 Hlong) as [H3 P3].
    set (t3 := veff VCommit t2) in *.
    destruct (si_serve o _ (y_2 y) _ _ _ H3 ltac:(lia)) as (e2 & H4 & P4 & V4).
    set (t4 := serve (y_2 y) t3) in *. rewrite P3 in P4.
    destruct (no_start _ _ _ _ _ start (y_2 y) H4 Hst) as [_ NS].
    pose proof (si_still (VStart (y_2 y)) _ _ _ _ _ H4 I (NS (or_intror P4))) as H5. cbn [ev_of] in H5.
    set (wt := mkWeather true true e0 e1 e2 []).
    exists [wt], (mkHq (hcall A EXT wt c start (hq_h th)) (hq_p th) []). cbn [fst snd].
    split; [|split; [repeat constructor|]].
    + unfold Rw. cbn [wq_t wq_y wq_now wq_fin hq_h hq_p]. splits; auto.
      * destruct (SI_fields _ _ _ _ _ H5) as (_ & _ & S3 & _). rewrite <- S3.
        apply (cs_pc A c (hq_h th) _ _ (proj1 (hcall_spec A EXT HA wt c start (hq_h th) Q4 Hc ltac:(congruence)))).
      * cbn [AvrStack.veff vq_p]. rewrite V4. unfold t3. cbn [AvrStack.veff vq_p]. rewrite V2. unfold t1. cbn [AvrStack.veff vq_p]. congruence.
      * lia.
    + intros ws2. unfold h_add, set_w, weather1. cbn [app hq_w hq_h hq_p tl]. f_equal.
      unfold wt. rewrite call_code by (auto; congruence). now rewrite R1.
  - assert (EV : veff (VBegin c start) t0 = t0).
    { apply veff_nop; [|reflexivity]. cbn [vstep]. rewrite P0. destruct (Z.eqb_spec (add_check A true c (v_q (vq_v t0))) AQE_OK); [contradiction|reflexivity]. }
    rewrite EV in H1. destruct (SI_fields _ _ _ _ _ H1) as (_ & _ & S3 & _). rewrite P0 in S3.
    set (wt := mkWeather true true e0 [] [] []).
    assert (EH : hcall A EXT wt c start (hq_h th) = step (EBegin c start true) (isr A EXT e0 (hq_h th))).
    { unfold hcall, wt. cbn [w_i0 w_i1 w_i2 w_r1 w_r2]. rewrite !isr_nil.
      set (h1 := step (EBegin c start true) (isr A EXT e0 (hq_h th))) in *. clearbody h1.
      assert (E2 : step (ECommit true) h1 = h1) by (cbn [hstep]; now rewrite S3). rewrite E2. cbn [hstep]. now rewrite S3. }
    exists [wt], (mkHq (hcall A EXT wt c start (hq_h th)) (hq_p th) []). cbn [fst snd].
    split; [|split; [repeat constructor|]].
    + unfold Rw. cbn [wq_t wq_y wq_now wq_fin hq_h hq_p]. rewrite EH. splits; auto; [congruence| |lia].
      eapply in_time_from; [exact T5|lia].
    + intros ws2. unfold h_add, set_w, weather1. cbn [app hq_w hq_h hq_p tl]. f_equal.
      unfold wt. rewrite call_code by (auto; congruence). now rewrite R1.
Qed.
Lemma free_null start h : h_pc h = Free -> h_pc (step (EAddNull start true) h) = Free.
Proof. intros E. cbn [hstep]. destruct (_ && _); [|exact E]. unfold start_head. destruct (_ && _); exact E. Qed.
Lemma sim_wnull o xa f start w th : Rw o xa f w th -> (start = true -> o <> None) ->
  exists ws th', Rw o xa f (fst (w_null start w)) th' /\ Forall ready ws /\
    forall ws2, h_null A EXT start (set_w (ws ++ ws2) th) = (set_w ws2 th', snd (w_null start w)).
Proof.
  intros (H & Hpc & Hp & Ht & Hxa & Hf) Hst. destruct (in_time_y1 _ Ht) as ([T1 T2] & T3 & T4 & T5).
  unfold w_null. cbv zeta. set (y := y1 w) in *.
  destruct (si_serve o _ (y_0 y) _ _ _ H ltac:(lia)) as (e0 & H0 & P0 & V0).
  set (t0 := serve (y_0 y) (wq_t w)) in *. rewrite Hpc in P0.
  destruct (SI_fields _ _ _ _ _ H0) as (R1 & R2 & R3 & _).
  destruct (no_start _ _ _ _ _ start (y_0 y) H0 Hst) as [NS _].
  pose proof (si_still (VNull start (y_0 y)) _ _ _ _ _ H0 I NS) as H1. cbn [ev_of] in H1.
  exists [mkWeather true true e0 [] [] []], (mkHq (step (EAddNull start true) (isr A EXT e0 (hq_h th))) (hq_p th) []).
  cbn [fst snd]. split; [|split; [repeat constructor|]].
  - unfold Rw. cbn [wq_t wq_y wq_now wq_fin hq_h hq_p]. destruct (SI_fields _ _ _ _ _ H1) as (_ & _ & S3 & _). splits; auto.
    + rewrite <- S3. apply free_null. congruence.
    + cbn [AvrStack.veff vq_p]. congruence.
    + eapply in_time_from; [exact T5|lia].
    + lia.
  - intros ws2. unfold h_null, set_w, weather1. cbn [app hq_w hq_h hq_p tl w_i0 w_r1]. rewrite R1, R2. reflexivity.
Qed.
(** the start at the end of a pass *)
Lemma sim_wstart xa f w th : Rw None xa f w th -> rest (tqueue th) <> [] ->
  fst (w_null true w) = mkWq (veff (VNull true (y_0 (y1 w))) (wq_t w)) (tl (wq_y w)) (y_0 (y1 w)) (wq_fin w) /\
  forall fin, fin < last_at (vq_v (wq_t (fst (w_null true w)))) ->
  exists ws th', Forall ready ws /\
    SI (Some (y_0 (y1 w))) (y_0 (y1 w)) fin (wq_t (fst (w_null true w))) (hq_h th') /\
    v_pc (vq_v (wq_t (fst (w_null true w)))) = Free /\ vq_p (wq_t (fst (w_null true w))) = hq_p th' /\
    vq_v (wq_t (fst (w_null true w))) = avr_start (y_0 (y1 w)) (vq_v (wq_t w)) /\
    forall ws2, h_null A EXT true (set_w (ws ++ ws2) th) = (set_w ws2 th', snd (w_null true w)).
Proof.
  intros HR Hn. destruct (Rw_fields _ _ _ _ _ HR) as (F1 & _ & _). destruct HR as (H & Hpc & Hp & Ht & Hxa & Hf).
  destruct (in_time_y1 _ Ht) as ([T1 T2] & T3 & T4 & T5).
  unfold w_null. cbv zeta. set (y := y1 w) in *.
  assert (ES : serve (y_0 y) (wq_t w) = wq_t w).
  { unfold serve. cbn [serve_n]. unfold due. destruct H as (_ & ((_ & _ & _ & _ & _ & _ & M1 & _) & _) & _). rewrite M1. reflexivity. }
  rewrite ES. cbn [fst snd wq_t]. split; [reflexivity|]. intros fin Hl.
  assert (H0 : SI None (y_0 y) (y_0 y) (wq_t w) (hq_h th)).
  { destruct H as (HC & H & K). split; [exact HC|]. split; [exact H|lia]. }
  destruct (SI_fields _ _ _ _ _ H0) as (R1 & R2 & R3 & _).
  destruct (si_start _ fin _ _ H0 Hpc ltac:(rewrite F1; exact Hn) Hl) as [H1 EV].
  exists [mkWeather true true [] [] [] []], (mkHq (step (EAddNull true true) (hq_h th)) (hq_p th) []).
  split; [repeat constructor|]. cbn [hq_h hq_p]. destruct (SI_fields _ _ _ _ _ H1) as (_ & _ & S3 & _). splits; auto.
  - rewrite <- S3. apply free_null. congruence.
  - intros ws2. unfold h_null, set_w, weather1. cbn [app hq_w hq_h hq_p tl w_i0 w_i3 w_r1]. rewrite !isr_nil, R1, R2. reflexivity.
Qed.
Lemma sim_wsadd o xa f ext busy c start s w th : Rw o xa f w th -> pauses_ok A EXT fine s c -> fine c -> (start = true -> o <> None) ->
  let r := s_add A wq wacc ext busy c start s w in
  exists ws th', Rw o xa f (snd (fst r)) th' /\ Forall ready ws /\
    forall ws2, s_add A hq X ext busy c start s (set_w (ws ++ ws2) th) = (fst (fst r), set_w ws2 th', snd r).
Proof.
  intros HR H1 H2 H3. cbv zeta.
  exact (AccessSim.sim_sadd A EXT wq wacc (Rw o xa f) (fun _ => True) fine (o <> None) ready (Rw_seen o xa f) (Rw_p o xa f)
    (fun c0 st0 t0 th0 R0 C0 S0 _ => sim_wadd o xa f c0 st0 t0 th0 R0 C0 S0) (fun st0 t0 th0 R0 S0 _ => sim_wnull o xa f st0 t0 th0 R0 S0)
    (fun _ _ _ _ => I) (fun _ _ _ => I) (fun _ _ _ => I) ext busy c start s w th HR H1 H2 H3 I).
Qed.

(** ** A refused command means a full queue *)
Lemma wadd_full c start w : 0 < snd (w_add c start w) -> isQueueFull A (t_q wq wacc (fst (w_add c start w))) = true.
Proof.
  unfold w_add. cbv zeta. set (q := v_q (vq_v (serve (y_0 (y1 w)) (wq_t w)))).
  destruct (add_check A true c q =? AQE_OK) eqn:E; cbn [fst snd].
  - apply Z.eqb_eq in E. rewrite E. unfold AQE_OK. lia.
  - change (t_q wq wacc (mkWq (serve (y_0 (y1 w)) (wq_t w)) (tl (wq_y w)) (y_0 (y1 w)) (wq_fin w))) with q.
    unfold add_check. cbn [negb]. destruct (isQueueFull A q); [reflexivity|].
    destruct (_ <? _); unfold AQE_ERROR_TICKS_TOO_LOW, AQE_OK; lia.
Qed.
Lemma null_low start w : snd (w_null start w) <= 0.
Proof.
  unfold w_null. cbn [snd]. unfold q_add_null. cbn [negb]. destruct (_ && _); [destruct (_ =? _)|]; cbn [a_code];
    unfold AQE_ERROR_EMPTY_QUEUE_TO_START, AQE_OK; lia.
Qed.
Definition enables (ext : extcall) (s : stepper) : Prop := forall p, snd (enableOutputs ext s p) = true.
Lemma sadd_full ext c start s w : enables ext s -> is_external (s_dirpin s) = false ->
  0 < snd (s_add A wq wacc ext false c start s w) ->
  isQueueFull A (t_q wq wacc (snd (fst (s_add A wq wacc ext false c start s w)))) = true.
Proof.
  intros He Hx. unfold s_add. cbv zeta.
  assert (F : snd (add_first wq wacc ext false c start s w) <= 0).
  { unfold add_first. cbv zeta. destruct (_ <? _); [vm_compute; discriminate|]. rewrite !andb_false_r. destruct (_ && _); [vm_compute; discriminate|].
    destruct (_ && _); [|vm_compute; discriminate]. rewrite He. cbn [negb]. destruct (_ >? 0); [apply null_low|vm_compute; discriminate]. }
  destruct (negb _) eqn:E; cbn [fst snd]; [intros; lia|]. clear F E.
  set (w1 := fst (add_first wq wacc ext false c start s w)). clearbody w1.
  assert (L : forall w, 0 < snd (add_last wq wacc c start s w) -> isQueueFull A (t_q wq wacc (snd (fst (add_last wq wacc c start s w)))) = true).
  { intros u. unfold add_last. cbn [fst snd]. apply wadd_full. }
  unfold add_second. cbv zeta. rewrite Hx. destruct (negb (Bool.eqb _ _)); [|apply L].
  destruct (_ && _); [|apply L]. destruct (negb _); cbn [fst snd]; [apply wadd_full|apply L].
Qed.

(** ** The end of the queue in time *)
(** with a start at time [x0], if there is none yet *)
Definition hor (o : option Z) (x0 : Z) (t : vq) : Z :=
  match o with Some _ => end_time (v_next (vq_v t)) (rest (v_q (vq_v t))) | None => x0 + dsum (rest (v_q (vq_v t))) end.
Lemma hor_acc o x fin t h x0 : SI o x fin t h -> exists w, h_acc h = a0 ++ w /\ Forall cmd_ok w /\
  hor o x0 t = (match o with Some s => s + 10 | None => x0 end) + dsum w.
Proof.
  intros (_ & H). destruct o as [s|].
  - destruct H as (w & (_ & (_ & _ & A2 & A3 & _) & _ & (w' & W1 & W2)) & _). exists w'. splits; auto.
    cbn [cmds map concat snd last_end] in A2, A3. rewrite app_nil_r in A2.
    rewrite W1 in A2. apply app_inv_head in A2. subst w'. unfold hor. rewrite A3. apply end_dsum.
  - destruct H as ((_ & (_ & _ & A2 & _) & _ & (w' & W1 & W2)) & _). exists w'. splits; auto.
    cbn [cmds map concat app] in A2. rewrite W1 in A2. apply app_inv_head in A2. subst w'. reflexivity.
Qed.
Lemma dsum_pos l : Forall cmd_ok l -> 0 <= dsum l.
Proof. induction 1 as [|c l [H1 H2] _ IH]; cbn [dsum]; [lia|]. unfold cdur. nia. Qed.
Lemma hor_add o x fin t h x' fin' t' h' x0 new : SI o x fin t h -> SI o x' fin' t' h' -> h_acc h' = h_acc h ++ new ->
  hor o x0 t' = hor o x0 t + dsum new /\ Forall cmd_ok new.
Proof.
  intros H H' E. destruct (hor_acc _ _ _ _ _ x0 H) as (w & A1 & A2 & A3). destruct (hor_acc _ _ _ _ _ x0 H') as (w' & B1 & B2 & B3).
  rewrite A1, <- app_assoc in E. rewrite B1 in E. apply app_inv_head in E. subst w'.
  rewrite A3, B3, dsum_app. split; [lia|]. apply Forall_app in B2. tauto.
Qed.
Lemma cmd_dur c : cmd_ok c -> cmd_ticks c = cdur c.
Proof.
  intros [H1 H2]. unfold cmd_ticks, cdur. destruct (Z.leb_spec (c_steps c) 1).
  - replace (Z.max 1 (c_steps c)) with 1 by lia. lia.
  - replace (Z.max 1 (c_steps c)) with (c_steps c) by lia. unfold u32. apply Z.mod_small. nia.
Qed.
Lemma cdur_range c : cmd_ok c -> 0 <= cdur c < 16777216.
Proof. intros [H1 H2]. unfold cdur. nia. Qed.

(** ** One pass of the loop *)
Definition pconf (s : stepper) : Prop :=
  mm <= 32768 /\ (s_dirdelay s = 0 \/ mm <= s_dirdelay s) /\ (s_ondelay s <= 0 \/ mm <= s_ondelay s) /\
  is_external (s_dirpin s) = false.
Lemma pconf_pauses s c : pconf s -> conf_ok s -> pauses_ok A EXT fine s c.
Proof.
  intros (P0 & P1 & P2 & P3) [C1 C2]. split; [|split].
  - intros th H. cbv zeta. set (d := on_delay hq X c s th).
    assert (Hd : 0 < d < 4294967296 /\ mm <= d).
    { unfold d, on_delay. destruct (Z.ltb_spec (s_ondelay s) (s_dirdelay s)); cbn [andb]; [|lia]. destruct (negb _); lia. }
    destruct (on_pieces_ok d (proj1 Hd)) as (_ & B & _). eapply Forall_impl; [|exact B]. cbn beta. intros e He.
    split; [split|]; cbn [c_ticks c_steps]; lia.
  - intros H. split; [split|]; unfold dir_pause; cbn [c_ticks c_steps]; lia.
  - rewrite P3. discriminate.
Qed.
Lemma pconf_like s s' : like s s' -> pconf s -> pconf s'.
Proof. intros [] H. unfold pconf in *. now rewrite lk_dirpin, lk_dirdelay, lk_ondelay. Qed.
Lemma enables_like ext s s' : like s s' -> enables ext s -> enables ext s'.
Proof. intros [] H p. unfold enableOutputs. rewrite lk_low, lk_high. apply H. Qed.
Lemma after_plan code s : s_plan (after_add code s) = s_plan s.
Proof. unfold after_add. destruct (_ && _); reflexivity. Qed.
Variable x0 : Z.
Variable PL : Z.
Hypothesis HPL : 0 < PL <= 2147483648.
Definition enough (o : option Z) (fuel : nat) (prepared : Z) (t : vq) : Prop :=
  x0 + PL <= hor o x0 t \/
  (0 <= prepared < PL /\ x0 + prepared <= hor o x0 t /\ PL <= prepared + Z.of_nat fuel * mm).
Definition ends (o : option Z) (s' : stepper) (t' : vq) : Prop :=
  isRampGeneratorActive (s_rg s') = false \/ x0 + PL <= hor o x0 t' \/ isQueueFull A (v_q (vq_v t')) = true.
Definition tight (s : stepper) (th : hq) (k : nat) (cs : list command) : Prop :=
  plan A k (s_rg s) (pos_of th) (up_of th) cs /\ (k <= S (length cs))%nat /\
  Forall (fits A s (q_max (tqueue th))) cs /\ Forall long cs.
Lemma timed_loop o xa f ext : forall fuel old prepared need s w th k cs,
  Rw o xa f w th -> delays_ok A s -> pconf s -> enables ext s -> s_plan s = PL -> tight s th k cs ->
  (o <> None -> fed s) -> enough o fuel prepared (wq_t w) ->
  let delayed := match o with Some _ => false | None => true end in
  exists s' w' need' ws th' k' cs',
    fill_loop A wq wacc ext (fun _ => false) delayed fuel old prepared need s w = Some (s', w', need') /\
    Rw o xa f w' th' /\ Forall ready ws /\
    (forall ws2, fill_loop A hq X ext (fun _ => false) delayed fuel old prepared need s (set_w (ws ++ ws2) th) = Some (s', set_w ws2 th', need')) /\
    tight s' th' k' cs' /\ like s s' /\ s_plan s' = PL /\
    (need' = true -> need = true \/ delayed = true) /\ ends o s' (wq_t w') /\ exists new, acc_of th' = acc_of th ++ new.
Proof.
  induction fuel as [|fuel IH]; intros old prepared need s w th k cs HR Hd Hpc He Hs Ht Hfed Hen delayed; cbn [fill_loop].
  { exists s, w, need, [], th, k, cs. splits; auto; [apply like_refl| |exists []; now rewrite app_nil_r].
    right. left. destruct Hen as [Hen|Hen]; lia. }
  destruct (Rw_fields _ _ _ _ _ HR) as (Eq & Hg & Ep). pose proof HR as (HS & _).
  assert (Hi : q_ignore (tqueue th) = false) by (rewrite <- Eq; apply HS).
  change (t_q wq wacc w) with (v_q (vq_v (wq_t w))). rewrite Eq.
  destruct (fill_more A s (tqueue th) prepared) eqn:C1.
  2:{ exists s, w, need, [], th, k, cs. splits; auto; [intros ws2|apply like_refl| |exists []; now rewrite app_nil_r].
      - change (t_q hq X (set_w ([] ++ ws2) th)) with (tqueue th). rewrite C1. reflexivity.
      - unfold fill_more in C1. unfold ends. rewrite Eq. destruct (isQueueFull A (tqueue th)); [auto|]. cbn [negb andb] in C1.
        destruct (isRampGeneratorActive (s_rg s)); [|auto]. right. left. rewrite andb_true_r in C1. apply orb_false_iff in C1 as [C1 _].
        destruct Hen as [Hen|Hen]; [exact Hen|lia]. }
  destruct Ht as (Hp & Hk & Hf & Hl).
  assert (Ha : isRampGeneratorActive (s_rg s) = true).
  { unfold fill_more in C1. apply andb_true_iff in C1. tauto. }
  rewrite (q_end_eta th). set (pin := qe_dir _).
  destruct (rg_getNextCommand A (mkQueueEnd (pos_of th) (up_of th) pin) old (s_rg s)) as [[g1 n]|] eqn:Eg.
  2:{ exfalso. eapply plan_some; eassumption. }
  cbv zeta. pose proof (getNext_valid A _ _ _ _ _ Eg) as Ev.
  assert (HQ : forall l, fill_more A s (t_q hq X (set_w l th)) prepared = true) by (intros; exact C1).
  assert (HG : forall l, rg_getNextCommand A (q_end (t_q hq X (set_w l th))) old (s_rg s) = Some (g1, n)).
  { intros l. change (t_q hq X (set_w l th)) with (tqueue th). rewrite (q_end_eta th). exact Eg. }
  destruct (Z.eqb_spec (c_ticks (n_cmd n)) 0) as [E0|E0].
  { destruct (plan_last A _ _ _ _ _ _ _ _ _ Hp Hk Ha Eg E0) as [-> Hin].
    exists (st_rg (rg_afterCommandEnqueued n g1) (st_rg g1 s)), w, delayed, [], th, O, []. splits; auto.
    - intros ws2. rewrite HQ, HG. cbv zeta. destruct (Z.eqb_spec (c_ticks (n_cmd n)) 0); [reflexivity|contradiction].
    - unfold tight. splits; auto. constructor. exact Hin.
    - apply (like_trans _ (st_rg g1 s)); apply like_rg; [exact Ev|reflexivity].
    - left. exact Hin.
    - exists []. now rewrite app_nil_r. }
  destruct (plan_again A _ _ _ _ _ _ _ _ _ (up_of th) Hp Ha Eg E0 (or_introl eq_refl)) as (k1 & cs1 & -> & -> & _ & _ & Hafter).
  inversion Hf as [|? ? Hfit Hf']; subst. inversion Hl as [|? ? Hlong Hl']; subst.
  set (c := n_cmd n) in *.
  assert (Hfine : fine c) by (split; [apply Hfit|exact Hlong]).
  assert (Hsto : negb delayed = true -> o <> None) by (unfold delayed; destruct o; discriminate).
  destruct (sim_wsadd o xa f ext false c (negb delayed) (st_rg g1 s) w th HR) as (w1 & th1 & R1 & D1 & E1); auto.
  { apply pconf_pauses; [exact Hpc|apply Hd]. }
  destruct (s_add_moved A EXT HA ext false c (negb delayed) (st_rg g1 s) (set_w (w1 ++ []) th) Hg Hi) as (Hcode & new & Hnew & Hcase).
  { exact Hd. } { exact Hfit. } { intros K. apply Hfed. now apply Hsto. }
  rewrite (E1 []) in Hcode, Hcase. cbn [fst snd] in Hcode, Hcase.
  pose proof (sadd_full ext c (negb delayed) (st_rg g1 s) w He (proj2 (proj2 (proj2 Hpc)))) as Hfull.
  destruct (s_add A wq wacc ext false c (negb delayed) (st_rg g1 s) w) as [[s1 t1] code]. cbn [fst snd] in *.
  assert (Hsteps : Forall (fun x => c_steps x = 0) new) by (eapply Forall_impl; [|exact Hnew]; cbn; tauto).
  assert (Hups : Forall (fun x => c_up x = c_up c) new) by (eapply Forall_impl; [|exact Hnew]; cbn; tauto).
  pose proof R1 as (HS1 & _). destruct (Rw_fields _ _ _ _ _ R1) as (Eq1 & _ & _).
  destruct Hcase as [(Eok & Es & M)|(Eok & Es & M)].
  - subst code. replace (AQE_OK =? AQE_OK) with true by reflexivity.
    assert (Ep1 : pos_of th1 = after_pos c (pos_of th)).
    { pose proof (mv_pos _ _ _ _ M) as K. change (pos_of (set_w [] th1)) with (pos_of th1) in K. rewrite K.
      change (pos_of (set_w (w1 ++ []) th)) with (pos_of th). unfold end_pos. rewrite fold_left_app. cbn [fold_left].
      f_equal. apply (end_pos_pauses new _ Hsteps). now apply (pos_range A). }
    assert (Eu : up_of th1 = c_up c).
    { pose proof (mv_up _ _ _ _ M) as K. rewrite end_up_app in K. exact K. }
    assert (Erg : s_rg s1 = g1).
    { subst s1. unfold after_add. destruct (_ && _); reflexivity. }
    rewrite Erg.
    set (s2 := st_rg (rg_afterCommandEnqueued n g1) s1).
    assert (LK : like s s2).
    { unfold s2. subst s1. eapply like_trans; [apply like_rg; exact Ev|].
      eapply like_trans; [apply (like_after AQE_OK)|apply like_rg]. rewrite Erg. reflexivity. }
    assert (PS : s_plan s2 = s_plan s) by (unfold s2; subst s1; change (s_plan (after_add AQE_OK (st_rg g1 s)) = s_plan s); now rewrite after_plan).
    pose proof (mv_acc _ _ _ _ M) as Hacc. change (acc_of th1 = acc_of th ++ new ++ [c]) in Hacc.
    destruct (hor_add _ _ _ _ _ _ _ _ _ x0 (new ++ [c]) HS HS1 Hacc) as [Hh Hnc].
    rewrite dsum_app in Hh. cbn [dsum] in Hh. apply Forall_app in Hnc as [Hnc _]. pose proof (dsum_pos _ Hnc) as Dp.
    pose proof (cdur_range c (proj1 Hfine)) as Cr.
    assert (Cm : mm <= cdur c) by (apply dur_ge; [exact Hlong|exact Hmm]).
    pose proof (mv_same _ _ _ _ M) as SC.
    destruct (IH n (u32 (prepared + cmd_ticks c)) delayed s2 t1 th1 k1 cs1) as
      (s' & w' & need' & ws & th' & k' & cs' & K1 & K2 & K5 & K6 & K7 & K8 & K9 & K10 & K11 & K12); auto.
    + eapply like_delays; eassumption.
    + eapply pconf_like; eassumption.
    + eapply enables_like; eassumption.
    + congruence.
    + unfold tight. rewrite Ep1, Eu. splits; auto; [cbn [length] in Hk; lia|].
      change (q_max (tqueue th1)) with (q_max (tqueue (set_w [] th1))). rewrite (sc_max _ _ SC). eapply Forall_impl; [|exact Hf'].
      intros a. now apply like_fits.
    + intros K. unfold s2. subst s1. change (fed (after_add AQE_OK (st_rg g1 s))). apply fed_after. left. now apply Hfed.
    + unfold enough in *. rewrite (cmd_dur c (proj1 Hfine)). destruct Hen as [Hen|(N1 & N2 & N3)]; [left; lia|].
      assert (U : u32 (prepared + cdur c) = prepared + cdur c) by (unfold u32; apply Z.mod_small; lia). rewrite U.
      destruct (Z.lt_ge_cases (prepared + cdur c) PL); [right; lia|left; lia].
    + fold delayed in K1, K6, K10. exists s', w', need', (w1 ++ ws), th', k', cs'. splits; auto; try lia.
      * apply Forall_app; auto.
      * intros ws2. rewrite HQ, HG. cbv zeta. fold c. destruct (Z.eqb_spec (c_ticks c) 0); [contradiction|].
        rewrite <- app_assoc, E1. cbn [fst snd]. rewrite Erg. apply K6.
      * eapply like_trans; eassumption.
      * intros K. right. destruct (K10 K); assumption.
      * destruct K12 as [nw K12]. exists ((new ++ [c]) ++ nw). rewrite K12, Hacc, <- !app_assoc. reflexivity.
  - destruct (Z.eqb_spec code AQE_OK); [contradiction|].
    destruct (Z.gtb_spec code 0) as [Hpos|Hpos].
    2:{ exfalso. apply Eok. unfold AQE_OK. lia. }
    assert (Ep1 : pos_of th1 = pos_of th).
    { pose proof (mv_pos _ _ _ _ M) as K. change (pos_of (set_w [] th1)) with (pos_of th1) in K. rewrite K.
      apply end_pos_pauses; [exact Hsteps|now apply (pos_range A)]. }
    assert (Eu : up_of th1 = up_of th \/ up_of th1 = c_up c).
    { pose proof (mv_up _ _ _ _ M) as K. change (up_of th1 = end_up (up_of th) new) in K. rewrite K. now apply end_up_same. }
    destruct (plan_again A _ _ _ _ _ _ _ _ _ (up_of th1) Hp Ha Eg E0 Eu) as (k2 & cs2 & _ & E2 & Hp1 & Hr1 & _).
    subst s1. exists (st_rg g1 s), t1, need, w1, th1, (S k1), (c :: cs1). splits; auto; try lia.
    + intros ws2. rewrite HQ, HG. cbv zeta. fold c. destruct (Z.eqb_spec (c_ticks c) 0); [contradiction|]. rewrite E1.
      destruct (Z.eqb_spec code AQE_OK); [contradiction|]. destruct (Z.gtb_spec code 0); [reflexivity|lia].
    + unfold tight. rewrite Ep1. splits; auto. pose proof (sc_max _ _ (mv_same _ _ _ _ M)) as K. change (q_max (tqueue th1) = q_max (tqueue th)) in K.
      rewrite K. exact Hf.
    + apply like_rg. exact Ev.
    + right. right. apply Hfull. lia.
    + exists new. exact (mv_acc _ _ _ _ M).
Qed.

(** ** One pass of the background task *)
Lemma dsum_pend l : dsum (map (cmd_of 0) l) = sum_dur l.
Proof.
  induction l as [|e l IH]; cbn [map dsum sum_dur]; [reflexivity|]. rewrite IH. unfold cdur, dur_of, cmd_of. cbn [c_ticks c_steps].
  now rewrite Z.add_0_l.
Qed.
Lemma ticks_rest h : inv A h -> 0 <= ticksInQueue A (h_q h) <= dsum (rest (h_q h)).
Proof.
  intros Hi. unfold rest. rewrite dsum_pend. pose proof (iv_ent A h Hi) as He.
  rewrite (ticksInQueue_spec A HA); [|apply (iv_wf A h Hi)|exact He].
  assert (P : forall l, Forall ent_ok l -> 0 <= sum_dur l).
  { induction 1 as [|e l H _ IH]; cbn [sum_dur]; [lia|]. pose proof (dur_of_range e H). lia. }
  destruct (pend A (h_q h)) as [|e l]; cbn [sum_dur]; [lia|]. inversion He; subst. pose proof (dur_of_range e H1). specialize (P l H2). lia.
Qed.
Lemma dsum_long l : Forall long l -> mm * Z.of_nat (length l) <= dsum l.
Proof.
  induction 1 as [|c l H _ IH]; [cbn; lia|]. change (dsum (c :: l)) with (cdur c + dsum l). cbn [length].
  assert (mm <= cdur c) by (apply dur_ge; [exact H|exact Hmm]). lia.
Qed.
Notation short := (fun c => 0 <= c_ticks c < 65536).
Lemma rest_short h q : inv A h -> h_q h = q -> Forall short (rest q).
Proof. intros Hi <-. unfold rest. rewrite Forall_map. eapply Forall_impl; [|apply (iv_ent A h Hi)]. intros e [H _]. exact H. Qed.
Definition far (v : avr) : Prop := x0 < v_next v /\ (x0 + PL <= v_next v + dsum (rest (v_q v)) \/ isQueueFull A (v_q v) = true).
Lemma far_bound B v : far v -> Forall short (rest (v_q v)) -> Forall long (rest (v_q v)) -> rest (v_q v) <> [] ->
  B <= PL - 65535 -> (isQueueFull A (v_q v) = true -> B <= dsum (rest (v_q v)) - last_ticks (rest (v_q v))) -> x0 + B <= last_at v.
Proof.
  intros [Hx Hc] He Hl Hn HB Hf. unfold last_at. rewrite end_dsum.
  destruct Hc as [Hc|Hc]; [|specialize (Hf Hc); lia]. clear Hf.
  destruct (exists_last Hn) as (l & c & E). rewrite E in *. unfold last_ticks. rewrite last_snoc, dsum_app in *. cbn [dsum] in *.
  apply Forall_app in He as [_ He]. inversion He; subst. lia.
Qed.
Lemma sim_wempty xa f w th : Rw None xa f w th -> rest (tqueue th) = [] ->
  exists ws th', Rw None xa f (fst (w_null true w)) th' /\ Forall ready ws /\
    forall ws2, h_null A EXT true (set_w (ws ++ ws2) th) = (set_w ws2 th', snd (w_null true w)).
Proof.
  intros HR Hn. destruct (Rw_fields _ _ _ _ _ HR) as (F1 & _ & _). destruct HR as (H & Hpc & Hp & Ht & Hxa & Hf).
  destruct (in_time_y1 _ Ht) as ([T1 T2] & T3 & T4 & T5).
  unfold w_null. cbv zeta. set (y := y1 w) in *.
  destruct (SI_fields _ _ _ _ _ H) as (R1 & R2 & R3 & R4).
  assert (ES : serve (y_0 y) (wq_t w) = wq_t w).
  { unfold serve. cbn [serve_n]. unfold due. destruct H as (_ & ((_ & _ & _ & _ & _ & _ & M1 & _) & _) & _). rewrite M1. reflexivity. }
  rewrite ES. cbn [fst snd].
  assert (Ea : a_started (q_add_null true true (v_q (vq_v (wq_t w))) (v_pins (vq_v (wq_t w)))) = false).
  { unfold q_add_null. cbn [negb]. destruct (_ && _); [|reflexivity].
    destruct (Z.eqb_spec (q_wr (v_q (vq_v (wq_t w)))) (q_rd (v_q (vq_v (wq_t w))))) as [E|E]; [reflexivity|].
    exfalso. apply E. rewrite <- R1. symmetry. apply (empty_iff A); [apply (iv_wf A _ R4)|]. apply (pend_nil A).
    unfold rest, tqueue in Hn. destruct (pend A (h_q (hq_h th))); [reflexivity|discriminate]. }
  assert (NS : starts (VNull true (y_0 y)) (vq_v (wq_t w)) = None) by (unfold starts; rewrite Hpc, Ea; reflexivity).
  pose proof (si_still (VNull true (y_0 y)) _ _ _ _ _ H I NS) as H1. cbn [ev_of] in H1.
  exists [mkWeather true true [] [] [] []], (mkHq (step (EAddNull true true) (hq_h th)) (hq_p th) []).
  split; [|split; [repeat constructor|]].
  - unfold Rw. cbn [wq_t wq_y wq_now wq_fin hq_h hq_p]. destruct (SI_fields _ _ _ _ _ H1) as (_ & _ & S3 & _). splits; auto.
    + eapply SI_weaken; [exact H1|lia|discriminate|lia].
    + rewrite <- S3. apply free_null. congruence.
    + eapply in_time_from; [exact T5|lia].
    + lia.
  - intros ws2. unfold h_null, set_w, weather1. cbn [app hq_w hq_h hq_p tl w_i0 w_i3 w_r1]. rewrite !isr_nil, R1, R2. reflexivity.
Qed.
Definition outcome (o : option Z) (s' : stepper) (now : Z) (t' : vq) (h' : hst) : Prop :=
  (exists st fin', (o = Some st \/ o = None /\ x0 <= st <= now) /\ SI (Some st) now fin' t' h' /\
     (isRampGeneratorActive (s_rg s') = true -> far (vq_v t') /\ fin' + 1 = last_at (vq_v t'))) \/
  (o = None /\ isRampGeneratorActive (s_rg s') = false /\ SI None now now t' h' /\ rest (v_q (vq_v t')) = []).
Lemma run_ne s x fin t h : SI (Some s) x fin t h -> rest (v_q (vq_v t)) <> [].
Proof. intros (_ & w & (Hm & _) & _). eapply run_nonempty. exact Hm. Qed.
Lemma pass_core o fin w thp m s ext fuel old k cs : let th := t_ignore hq X false thp in
  Rw o x0 fin w th -> wq_now w = x0 -> tinv A m k cs (s, thp) -> tight s thp k cs -> conf24 A s -> pconf s -> enables ext s ->
  s_plan s = PL -> PL <= Z.of_nat fuel * mm -> isRampGeneratorActive (s_rg s) = true ->
  checkValidConfig (rg_params (s_rg s)) = MOVE_OK -> (o = None -> rest (tqueue thp) = []) ->
  exists s1 w1 (need : bool) s' th' ws k' cs',
    let delayed := negb (q_running (v_q (vq_v (wq_t w)))) in
    let w' := if need then fst (w_null true w1) else w1 in
    fill_loop A wq wacc ext (fun _ => false) delayed fuel old (ticksInQueue A (v_q (vq_v (wq_t w)))) false s w = Some (s1, w1, need)
    /\ s' = s1 /\ fill_queue A hq X ext (fun _ => false) fuel old s (set_w ws thp) = Some (s', th')
    /\ tinv A m k' cs' (s', th') /\ tight s' th' k' cs' /\ like s s' /\ s_plan s' = PL
    /\ v_pc (vq_v (wq_t w')) = Free /\ vq_p (wq_t w') = hq_p th' /\ x0 <= wq_now w' <= fin
    /\ outcome o s' (wq_now w') (wq_t w') (hq_h th').
Proof.
  intros th HR Hnow HI Ht H24 Hpc He Hs Hfu Ha Hv Hro.
  destruct (Rw_fields _ _ _ _ _ HR) as (Eq & Hg & Ep). pose proof HR as (HS & _).
  pose proof (SI_running _ _ _ _ _ HS) as Hrun. destruct (SI_fields _ _ _ _ _ HS) as (Q1 & _ & _ & Q4).
  set (delayed := match o with Some _ => false | None => true end).
  assert (Ed : negb (q_running (v_q (vq_v (wq_t w)))) = delayed) by (rewrite Hrun; unfold delayed; destruct o; reflexivity).
  rewrite Ed.
  assert (Hrun' : q_running (tqueue thp) = negb delayed).
  { change (q_running (tqueue thp)) with (q_running (tqueue th)). rewrite <- Eq, <- Ed, negb_involutive. reflexivity. }
  assert (Hfed : o <> None -> fed s).
  { intros Ho. destruct HI as (_ & _ & _ & _ & _ & Hc). cbn [fst snd] in Hc. destruct (Hc Ha) as [C|(_ & C & _)]; [exact C|].
    exfalso. rewrite Hrun' in C. unfold delayed in C. destruct o; [discriminate|now apply Ho]. }
  pose proof (ticks_rest _ Q4) as Htr. rewrite Q1 in Htr.
  assert (Hen : enough o fuel (ticksInQueue A (v_q (vq_v (wq_t w)))) (wq_t w)).
  { set (pr := ticksInQueue A (v_q (vq_v (wq_t w)))) in *. unfold enough, hor. destruct o as [st|].
    - destruct HS as (_ & w0 & _ & HS & _). rewrite end_dsum. destruct (Z.lt_ge_cases pr PL); lia.
    - specialize (Hro eq_refl). change (rest (tqueue thp)) with (rest (tqueue th)) in Hro. rewrite <- Eq in Hro. rewrite Hro in *.
      cbn [dsum] in *. lia. }
  destruct (timed_loop o x0 fin ext fuel old (ticksInQueue A (v_q (vq_v (wq_t w)))) false s w th k cs)
    as (s1 & w1 & need & ws & th1 & k' & cs' & K1 & K2 & K3 & K4 & K5 & K6 & K7 & K8 & K9 & _); auto.
  { apply HI. }
  fold delayed in K1, K4, K8.
  assert (FQ : forall ws2, fill_queue A hq X ext (fun _ => false) fuel old s (set_w (ws ++ ws2) thp) =
     Some (s1, if need then fst (h_null A EXT true (set_w ws2 th1)) else set_w ws2 th1)).
  { intros ws2. unfold fill_queue. rewrite Ha, Hv. cbn [negb]. change (MOVE_OK =? MOVE_OK) with true. cbn [negb]. cbv zeta.
    change (t_ignore hq X false (set_w (ws ++ ws2) thp)) with (set_w (ws ++ ws2) th).
    change (t_q hq X (set_w (ws ++ ws2) th)) with (tqueue th). rewrite <- Eq, Ed, K4. destruct need; reflexivity. }
  assert (FIN : forall w' th' ws2, (if need then fst (h_null A EXT true (set_w ws2 th1)) else set_w ws2 th1) = th' -> Forall ready ws2 ->
     w' = (if need then fst (w_null true w1) else w1) ->
     v_pc (vq_v (wq_t w')) = Free -> vq_p (wq_t w') = hq_p th' -> x0 <= wq_now w' <= fin ->
     (going th' -> outcome o s1 (wq_now w') (wq_t w') (hq_h th')) ->
     exists s1 w1 (need : bool) s' th' ws k' cs',
    let w' := if need then fst (w_null true w1) else w1 in
    fill_loop A wq wacc ext (fun _ => false) delayed fuel old (ticksInQueue A (v_q (vq_v (wq_t w)))) false s w = Some (s1, w1, need)
    /\ s' = s1 /\ fill_queue A hq X ext (fun _ => false) fuel old s (set_w ws thp) = Some (s', th')
    /\ tinv A m k' cs' (s', th') /\ tight s' th' k' cs' /\ like s s' /\ s_plan s' = PL
    /\ v_pc (vq_v (wq_t w')) = Free /\ vq_p (wq_t w') = hq_p th' /\ x0 <= wq_now w' <= fin
    /\ outcome o s' (wq_now w') (wq_t w') (hq_h th')).
  { intros w' th' ws2 E1 R2 E2 P1 P2 P3 P4. exists s1, w1, need, s1, th', (ws ++ ws2), k', cs'. cbv zeta. rewrite <- E2.
    specialize (FQ ws2). rewrite E1 in FQ.
    assert (HI2 : tinv A m k cs (s, set_w (ws ++ ws2) thp)) by exact HI.
    destruct (fill_ok A EXT HA ext (fun _ => false) fuel old m k cs s (set_w (ws ++ ws2) thp) HI2) as (y & k2 & d2 & r2 & nw & Y1 & Y2 & _).
    rewrite FQ in Y1. injection Y1 as <-.
    pose proof (tn_inv _ _ _ _ _ _ _ _ _ _ Y2) as (I1 & I2 & I3 & _ & _ & I6). cbn [fst snd] in *.
    assert (TI : tight s1 th' k' cs').
    { destruct K5 as (T1 & T2 & T3 & T4). unfold tight.
      assert (G : good A th1) by apply (Rw_fields _ _ _ _ _ K2).
      assert (EE : q_end (tqueue th') = q_end (tqueue th1) /\ q_max (tqueue th') = q_max (tqueue th1)).
      { subst th'. destruct need; [|split; reflexivity]. change (h_null A EXT) with (t_null hq X).
        pose proof (null_ok A EXT HA true (set_w ws2 th1) G) as NS. split; [exact (ns_end _ _ _ _ NS)|exact (sc_max _ _ (ns_same _ _ _ _ NS))]. }
      destruct EE as [E3 E4]. unfold pos_of, up_of in *. rewrite E3, E4. auto. }
    destruct P3 as [P3 P3']. splits; auto.
    - destruct TI as (T1 & T2 & T3 & T4). split; [exact I1|]. split; [exact I2|]. split; [exact I3|]. cbn [fst snd]. rewrite I3 in T3. auto.
    - apply P4. apply (fill_going A EXT HA ext (fun _ => false) fuel old m k cs s (set_w (ws ++ ws2) thp) (s1, th') HI2 H24); auto.
      + unfold all_ready. cbn [set_w hq_w]. apply Forall_app; auto.
      + unfold going, goes. change (tqueue (set_w (ws ++ ws2) thp)) with (tqueue thp). rewrite Hrun'. unfold delayed. destruct o; [right; reflexivity|left].
        specialize (Hro eq_refl). unfold rest in Hro. apply (pend_nil A). destruct (pend A (tqueue thp)); [reflexivity|discriminate]. }
  destruct (Rw_fields _ _ _ _ _ K2) as (Eq1 & _ & _).
  pose proof K2 as (S1 & P1 & P2 & P3 & P4 & P5). pose proof (in_time_le _ _ _ P3) as P6. rewrite P5 in P6.
  destruct (SI_fields _ _ _ _ _ S1) as (Q5 & _ & _ & Q6).
  destruct o as [st|].
  - assert (need = false) by (destruct need; [destruct (K8 eq_refl); discriminate|reflexivity]). subst need.
    apply (FIN w1 (set_w [] th1) []); auto. intros _. left.
    destruct (isRampGeneratorActive (s_rg s1)) eqn:Ea1.
    + exists st, (last_at (vq_v (wq_t w1)) - 1). split; [now left|].
      destruct S1 as (C & w0 & S2 & S3 & S4). split.
      * split; [exact C|]. exists w0. split; [exact S2|]. split; [exact S3|lia].
      * intros _. split; [|lia]. split; [lia|].
        destruct K9 as [K9|[K9|K9]]; [congruence|left|right; exact K9]. unfold hor in K9. now rewrite end_dsum in K9.
    + exists st, (wq_fin w1). split; [now left|]. split; [exact S1|discriminate].
  - destruct need.
    + destruct (rest (tqueue th1)) as [|c0' l0] eqn:Er.
      * destruct (sim_wempty _ _ _ _ K2 Er) as (w2 & th2 & R2 & D2 & E2).
        pose proof R2 as (S2 & U1 & U2 & U3 & U4 & U5). pose proof (in_time_le _ _ _ U3) as U6. rewrite U5 in U6.
        specialize (E2 []). rewrite app_nil_r in E2.
        apply (FIN (fst (w_null true w1)) (set_w [] th2) w2); auto; [now rewrite E2|]. intros Hgo. right.
        destruct (Rw_fields _ _ _ _ _ R2) as (Eq2 & _ & _).
        pose proof (SI_running _ _ _ _ _ S2) as Hr2. rewrite Eq2 in Hr2.
        assert (Er2 : rest (tqueue th2) = []).
        { unfold going, goes in Hgo. change (tqueue (set_w [] th2)) with (tqueue th2) in Hgo. destruct Hgo as [Hgo|Hgo]; [|congruence].
          unfold rest. apply (pend_nil A) in Hgo. now rewrite Hgo. }
        splits; auto.
        -- destruct K9 as [K9|[K9|K9]]; [exact K9| |].
           ++ exfalso. unfold hor in K9. rewrite Eq1, Er in K9. cbn [dsum] in K9. lia.
           ++ exfalso. rewrite Eq1 in K9. unfold isQueueFull in K9. unfold rest in Er.
              assert (N : queueEntries (tqueue th1) = 0) by (apply (pend_nil A); destruct (pend A (tqueue th1)); [reflexivity|discriminate]).
              rewrite N in K9. discriminate.
        -- rewrite Eq2. exact Er2.
      * assert (Hne : rest (tqueue th1) <> []) by (rewrite Er; discriminate).
        destruct (sim_wstart _ _ _ _ K2 Hne) as [EW SW].
        set (w2 := fst (w_null true w1)) in *.
        destruct (in_time_y1 _ P3) as ([T1 T2] & T3 & T4 & T5).
        set (st := y_0 (y1 w1)) in *.
        assert (N2 : wq_now w2 = st) by (rewrite EW; reflexivity).
        assert (ST : exists fin', fin' < last_at (vq_v (wq_t w2)) /\
          (isRampGeneratorActive (s_rg s1) = true -> far (vq_v (wq_t w2)) /\ fin' + 1 = last_at (vq_v (wq_t w2)))).
        { destruct (SW (last_at (vq_v (wq_t w2)) - 1) ltac:(lia)) as (_ & _ & _ & _ & _ & _ & EV & _).
          exists (last_at (vq_v (wq_t w2)) - 1). split; [lia|]. intros Ea1. split; [|lia]. rewrite EV. split.
          - cbn [avr_start v_next]. lia.
          - change (rest (v_q (avr_start st (vq_v (wq_t w1))))) with (rest (v_q (vq_v (wq_t w1)))).
            change (isQueueFull A (v_q (avr_start st (vq_v (wq_t w1))))) with (isQueueFull A (v_q (vq_v (wq_t w1)))).
            destruct K9 as [K9|[K9|K9]]; [congruence|left|right; exact K9]. unfold hor in K9. cbn [avr_start v_next]. lia. }
        destruct ST as (fin' & F1 & F2).
        destruct (SW fin' F1) as (ws3 & th3 & D3 & S3 & U1 & U2 & _ & E3).
        specialize (E3 []). rewrite app_nil_r in E3.
        apply (FIN w2 (set_w [] th3) ws3); auto; [now rewrite E3|lia|]. intros _. left. exists st, fin'. rewrite N2. splits; auto. right. split; [reflexivity|lia].
    + apply (FIN w1 (set_w [] th1) []); auto. intros Hgo. right.
      pose proof (SI_running _ _ _ _ _ S1) as Hr2. rewrite Eq1 in Hr2.
      assert (Er : rest (tqueue th1) = []).
      { unfold going, goes in Hgo. change (tqueue (set_w [] th1)) with (tqueue th1) in Hgo. destruct Hgo as [Hgo|Hgo]; [|congruence].
        unfold rest. apply (pend_nil A) in Hgo. now rewrite Hgo. }
      splits; auto.
      * destruct K9 as [K9|[K9|K9]]; [exact K9| |].
        -- exfalso. unfold hor in K9. rewrite Eq1, Er in K9. cbn [dsum] in K9. lia.
        -- exfalso. rewrite Eq1 in K9. unfold isQueueFull in K9. unfold rest in Er.
           assert (N : queueEntries (tqueue th1) = 0) by (apply (pend_nil A); destruct (pend A (tqueue th1)); [reflexivity|discriminate]).
           rewrite N in K9. discriminate.
      * rewrite Eq1. exact Er.
Qed.
End Account.
(** ** The cyclic task and the clock *)
(** [WFill]: a pass of fill_queue (src/FastAccelStepper.cpp:363-450) begins at the time [t0],
    ends not after [fin]; [ys]: the times of its calls; [WTick]: the automatic disable
    (src/FastAccelStepper.cpp:160-211, 452-489) at a time; [WServe]: time passes *)
Inductive wtask :=
| WFill (ext : extcall) (fuel : nat) (old : next_command) (t0 : Z) (ys : list vtimes) (fin : Z)
| WTick (ext : extcall) (x : Z)
| WServe (x : Z).
Definition wtstep (e : wtask) (st : stepper * vq) : option (stepper * vq) :=
  let '(s, t) := st in
  match e with
  | WFill ext fuel old t0 ys fin =>
    match fill_queue A wq wacc ext (fun _ => false) fuel old s (mkWq (serve t0 t) ys t0 fin) with
    | None => None
    | Some (s', w') => Some (s', wq_t w')
    end
  | WTick ext x =>
    let t1 := serve x t in
    let r := tick ext s (v_q (vq_v t1)) (vq_p t1) in Some (fst r, t_setpins vq (vacc EXT) (snd r) t1)
  | WServe x => Some (s, serve x t)
  end.
Fixpoint wtrun (l : list wtask) (st : stepper * vq) : option (stepper * vq) :=
  match l with
  | [] => Some st
  | e :: l' => match wtstep e st with None => None | Some st' => wtrun l' st' end
  end.
(** The times are in order, and a pass has ended before the time [B] after the begin of the
    one before it; [last]: the begin of the pass before *)
Fixpoint punctual (B now : Z) (last : option Z) (l : list wtask) : Prop :=
  match l with
  | [] => True
  | WFill _ _ _ t0 ys fin :: l' =>
    now <= t0 /\ in_time t0 ys fin /\ match last with Some tl => fin < tl + B | None => True end
    /\ punctual B fin (Some t0) l'
  | WTick _ x :: l' | WServe x :: l' => now <= x /\ punctual B x last l'
  end.
(** the begin of the last pass, the end of the first one, the time at the end *)
Fixpoint last_begin (last : option Z) (l : list wtask) : option Z :=
  match l with [] => last | WFill _ _ _ t0 _ _ :: l' => last_begin (Some t0) l' | _ :: l' => last_begin last l' end.
Fixpoint first_end (l : list wtask) : option Z :=
  match l with [] => None | WFill _ _ _ _ _ fin :: _ => Some fin | _ :: l' => first_end l' end.
Fixpoint clock (now : Z) (l : list wtask) : Z :=
  match l with [] => now | WFill _ _ _ _ _ fin :: l' => clock fin l' | WTick _ x :: l' | WServe x :: l' => clock x l' end.
Lemma punctual_app B : forall l l2 now last, punctual B now last (l ++ l2) ->
  punctual B now last l /\ punctual B (clock now l) (last_begin last l) l2.
Proof.
  induction l as [|e l IH]; intros l2 now last; [cbn [app punctual clock last_begin]; auto|].
  destruct e; cbn [app punctual clock last_begin].
  - intros (H1 & H2 & H3 & H4). apply IH in H4 as [H4 H5]. auto.
  - intros (H1 & H2). apply IH in H2 as [H2 H3]. auto.
  - intros (H1 & H2). apply IH in H2 as [H2 H3]. auto.
Qed.
Lemma wtrun_app : forall l l2 st, wtrun (l ++ l2) st = match wtrun l st with None => None | Some y => wtrun l2 y end.
Proof. induction l as [|e l IH]; intros l2 st; cbn [app wtrun]; [reflexivity|]. destruct (wtstep e st); auto. Qed.
Definition able (mm PL : Z) (s : stepper) (e : wtask) : Prop :=
  match e with WFill ext fuel _ _ _ _ => enables ext s /\ PL <= Z.of_nat fuel * mm | _ => True end.

Lemma trun_snoc : forall l x y e z, trun A EXT l x = Some y -> tstep A EXT e y = Some z -> trun A EXT (l ++ [e]) x = Some z.
Proof.
  induction l as [|a l IH]; intros x y e z; cbn [trun app].
  - intros E1 E2. injection E1 as ->. now rewrite E2.
  - destruct (tstep A EXT a x); [|discriminate]. apply IH.
Qed.
Lemma conf24_like s s' : like s s' -> conf24 A s -> conf24 A s'.
Proof. intros [] H. unfold conf24, conf_ok in *. now rewrite lk_dirdelay, lk_ondelay, lk_off. Qed.

(** [B]: time until the last command of a full queue while the ramp generator is active *)
Definition full_lasts (mm B : Z) (s1 : stepper) (th0 : hq) : Prop :=
  forall l s th, trun A EXT l (s1, th0) = Some (s, th) -> isRampGeneratorActive (s_rg s) = true -> good A th ->
  Forall (fun c => mm <= c_ticks c) (rest (tqueue th)) -> isQueueFull A (tqueue th) = true ->
  B <= dsum (rest (tqueue th)) - last_ticks (rest (tqueue th)).
Definition BB (mm PL : Z) : Z := Z.min (PL - 65535) (15 * mm).
Lemma full_15 mm PL s1 th0 : 0 <= mm -> full_lasts mm (BB mm PL) s1 th0.
Proof.
  intros Hmm l s th _ _ _ Hl K.
  assert (Len : length (rest (tqueue th)) = 16%nat).
  { unfold rest. rewrite map_length, (pend_length A). unfold isQueueFull in K. apply Z.eqb_eq in K. rewrite K. reflexivity. }
  assert (Hn : rest (tqueue th) <> []) by (intros E; rewrite E in Len; discriminate).
  destruct (exists_last Hn) as (r & c & E). rewrite E in *. unfold last_ticks. rewrite last_snoc, dsum_app. cbn [dsum].
  apply Forall_app in Hl as [Hl Hc2]. inversion Hc2; subst. rewrite app_length in Len. cbn [length] in Len.
  assert (c_ticks c <= cdur c) by (apply dur_ge; lia). pose proof (dsum_long (fun _ => None) mm Hmm r Hl) as D. unfold BB. lia.
Qed.

Section Schedule.
Variable dir : bool -> option bool.
Variable tb : Z.
Variable a0 : list command.
Variables mm PL : Z.
Hypothesis Hmm : 0 <= mm.
Hypothesis HPL : 0 < PL <= 2147483648.
Variable m : Z.
Variable s1 : stepper.
Variable th0 : hq.
Variable B : Z.
Hypothesis HBPL : B <= PL - 65535.
Hypothesis HBF : full_lasts mm B s1 th0.
Notation rel_at := (rel_at EXT dir tb a0).
(** any compare events *)
Lemma serve_any x : forall n mo ss t h, rel_at mo ss (vq_v t) (vq_log t) h -> (mo = MIdle -> rest (v_q (vq_v t)) = []) ->
  exists evs mo', rel_at mo' ss (vq_v (serve_n n x t)) (vq_log (serve_n n x t)) (isr A EXT evs h)
    /\ (mo' = MIdle -> rest (v_q (vq_v (serve_n n x t))) = [])
    /\ vq_ok (serve_n n x t) = vq_ok t /\ vq_p (serve_n n x t) = vq_p t.
Proof.
  induction n as [|n IH]; intros mo ss t h HR Hi; cbn [serve_n].
  - exists [], mo. auto.
  - destruct (due x (vq_v t)); [|exists [], mo; auto].
    destruct (at_isr EXT dir tb a0 _ _ _ _ _ HR) as (e1 & m1 & HR1 & K).
    destruct (IH m1 ss (veff VIsr t) (isr A EXT e1 h)) as (e2 & m2 & H1 & H2 & H3 & H4).
    + exact HR1.
    + intros E. cbn [AvrStack.veff vq_v]. destruct (K (or_intror E)) as [K1 [K2|K2]]; rewrite K1; auto.
    + exists (e1 ++ e2), m2. rewrite isr_app. splits; auto.
      rewrite H3. cbn [AvrStack.veff vq_ok favourable]. apply andb_true_r.
Qed.
(** [serve] leaves no compare event *)
Definition events (mo : mode) (v : avr) : nat := match mo with MRun => S (count (rest (v_q v))) | MDrain => 1 | MIdle => 0 end.
Lemma serve_done x : forall n mo t h, in_mode mo (vq_v t) h -> (events mo (vq_v t) <= n)%nat ->
  due x (vq_v (serve_n n x t)) = false.
Proof.
  induction n as [|n IH]; intros mo t h Hm Hn; cbn [serve_n].
  - destruct mo; cbn [events] in Hn; try lia. unfold due. destruct Hm as (_ & _ & _ & _ & _ & _ & M1 & _). now rewrite M1.
  - destruct (due x (vq_v t)) eqn:Ed; [|exact Ed].
    assert (EV : vq_v (veff VIsr t) = fst (avr_isr (vq_v t))).
    { unfold due in Ed. apply andb_true_iff in Ed as [Ed _]. cbn [AvrStack.veff vq_v vstep]. now rewrite Ed. }
    destruct mo.
    + destruct (isr_run_ev EXT _ _ Hm) as (m1 & ev & _ & K1 & K2 & _ & _ & K3 & _).
      apply (IH m1 (veff VIsr t) (hstep A EXT ev h)); rewrite EV; [exact K1|].
      cbn [events] in Hn. destruct K2 as [->|[-> K2]]; cbn [events]; lia.
    + destruct (isr_drain_ev EXT _ _ Hm) as (_ & K1 & _).
      apply (IH MIdle (veff VIsr t) (hstep A EXT EStop h)); rewrite ?EV; [exact K1|cbn [events]; lia].
    + unfold due in Ed. destruct Hm as (_ & _ & _ & _ & _ & _ & M1 & _). rewrite M1 in Ed. discriminate.
Qed.
Lemma serve_not_due x mo t h : in_mode mo (vq_v t) h -> due x (vq_v (serve x t)) = false.
Proof.
  intros Hm. unfold serve. eapply serve_done; [exact Hm|]. destruct mo; cbn [events]; lia.
Qed.
Lemma kept_isr k cs s th evs : good A th -> tinv A m k cs (s, th) -> tight mm s th k cs ->
  let th' := set_h (isr A EXT evs (hq_h th)) th in tinv A m k cs (s, th') /\ tight mm s th' k cs /\ hq_p th' = hq_p th /\
    h_pc (hq_h th') = h_pc (hq_h th).
Proof.
  intros Hg HI Ht th'. destruct (isr_kept A EXT HA evs (hq_h th) (proj1 Hg)) as [_ K].
  assert (E : pos_of th' = pos_of th /\ up_of th' = up_of th /\ q_max (tqueue th') = q_max (tqueue th)).
  { unfold pos_of, up_of, tqueue, th'. cbn [set_h hq_h]. rewrite (k_end _ _ K), (k_max _ _ K). auto. }
  destruct E as (E1 & E2 & E3).
  assert (T : tight mm s th' k cs) by (unfold tight; rewrite E1, E2, E3; exact Ht).
  split; [|splits; auto; exact (k_pc _ _ K)].
  destruct (tstep_ok A EXT HA (TIsr evs) m k cs (s, th) HI) as (y & k' & d & r & w & Y1 & Y2).
  injection Y1 as <-. destruct (tn_inv _ _ _ _ _ _ _ _ _ _ Y2) as (I1 & I2 & I3 & _ & _ & I6).
  destruct T as (T1 & T2 & T3 & T4). fold th' in I1, I3, I6. unfold tinv. cbn [fst snd] in *. rewrite I3 in T3. splits; auto.
Qed.

Definition static (s : stepper) (th : hq) : Prop :=
  exists k cs, tinv A m k cs (s, th) /\ tight mm s th k cs /\ conf24 A s /\ pconf mm s /\ s_plan s = PL
    /\ checkValidConfig (rg_params (s_rg s)) = MOVE_OK.
Definition by_first (first : option Z) (st : Z) : Prop := exists f1, first = Some f1 /\ st <= f1.
(** [ex]: the compare events up to the time [now] have been served; [first]: the end of the
    first pass *)
Definition phase (ex : bool) (now : Z) (last first : option Z) (s : stepper) (t : vq) (th : hq) : Prop :=
  (isRampGeneratorActive (s_rg s) = true /\ static s th /\ last = None /\ first = None /\ tb <= now /\
     rel_at MIdle [] (vq_v t) (vq_log t) (hq_h th) /\ rest (v_q (vq_v t)) = []) \/
  (isRampGeneratorActive (s_rg s) = true /\ static s th /\
     exists tl st x fin, last = Some tl /\ by_first first st /\ x <= now /\ (ex = true -> x = now) /\
       SI dir tb a0 mm (Some st) x fin t (hq_h th) /\ tl + B <= fin + 1) \/
  (exists mo ss, rel_at mo ss (vq_v t) (vq_log t) (hq_h th) /\ (length ss <= 1)%nat /\ (mo = MIdle -> rest (v_q (vq_v t)) = []) /\
     Forall (fun p => by_first first (fst p)) ss /\ (ex = true -> due now (vq_v t) = false) /\
     (isRampGeneratorActive (s_rg s) = false \/ exists tl, last = Some tl /\ tl + B <= now)).
Definition WI (ex : bool) (now : Z) (last first : option Z) (st : stepper * vq) : Prop :=
  let '(s, t) := st in
  exists l' th, trun A EXT l' (s1, th0) = Some (s, th) /\ like s1 s /\ vq_ok t = true /\ v_pc (vq_v t) = Free /\ vq_p t = hq_p th
    /\ phase ex now last first s t th.

Lemma wi_serve now last first s t x : WI false now last first (s, t) -> now <= x -> WI true x last first (s, serve x t).
Proof.
  intros (l' & th & T & L & O & P & V & H) Hx.
  assert (G : forall evs, trun A EXT (l' ++ [TIsr evs]) (s1, th0) = Some (s, set_h (isr A EXT evs (hq_h th)) th)).
  { intros evs. eapply trun_snoc; [exact T|reflexivity]. }
  assert (N : forall mo ss, rel_at mo ss (vq_v t) (vq_log t) (hq_h th) -> (mo = MIdle -> rest (v_q (vq_v t)) = []) ->
     (length ss <= 1)%nat -> Forall (fun p => by_first first (fst p)) ss ->
     (isRampGeneratorActive (s_rg s) = false \/ exists tl, last = Some tl /\ tl + B <= x) ->
     WI true x last first (s, serve x t)).
  { intros mo ss HR Hi Hs Hby Hl. destruct (serve_any x (S (count (rest (v_q (vq_v t))))) mo ss t _ HR Hi) as (evs & mo' & K1 & K2 & K3 & K4).
    exists (l' ++ [TIsr evs]), (set_h (isr A EXT evs (hq_h th)) th). split; [apply G|]. split; [exact L|].
    split; [unfold serve; congruence|]. split; [|split; [unfold serve; rewrite K4; exact V|]].
    - unfold serve. destruct (at_fields dir tb a0 _ _ _ _ _ K1) as (_ & _ & F1 & _). rewrite <- F1.
      destruct (at_fields dir tb a0 _ _ _ _ _ HR) as (_ & _ & F3 & F2).
      destruct (isr_kept A EXT HA evs (hq_h th) F2) as [_ K]. rewrite (k_pc _ _ K). congruence.
    - right. right. exists mo', ss. splits; auto. intros _. apply (serve_not_due x mo t (hq_h th)). apply HR. }
  destruct H as [(Ha & Hs & Hl & Hl1 & Hb & HR & Hr)|[(Ha & Hs & tl & st & x1 & fin & Hl & Hby & Hx1 & _ & HS & HB)|(mo & ss & HR & Hss & Hi & Hby & _ & Hl)]].
  - assert (E : serve x t = t).
    { unfold serve. cbn [serve_n]. unfold due. destruct HR as ((_ & _ & _ & _ & _ & _ & M1 & _) & _). now rewrite M1. }
    rewrite E. exists l', th. splits; auto. left. splits; auto. lia.
  - destruct (Z.le_gt_cases x fin) as [Hf|Hf].
    + destruct (si_serve dir tb a0 mm _ _ x _ _ _ HS ltac:(lia)) as (evs & K1 & K2 & K3).
      destruct Hs as (k & cs & I1 & I2 & I3). destruct (kept_isr k cs s th evs (proj1 I1) I1 I2) as (I4 & I5 & I6 & _).
      exists (l' ++ [TIsr evs]), (set_h (isr A EXT evs (hq_h th)) th). split; [apply G|]. split; [exact L|].
      split; [apply K1|]. split; [congruence|]. split; [congruence|].
      right. left. split; [exact Ha|]. split; [exists k, cs; split; [exact I4|]; split; [exact I5|exact I3]|]. exists tl, st, x, fin. splits; auto. lia.
    + destruct HS as (_ & w & HR & _). apply (N MRun [(st, w)]); auto; [discriminate|]. right. exists tl. split; [exact Hl|lia].
  - apply (N mo ss); auto. destruct Hl as [Hl|(tl & Hl & Hb)]; [now left|right]. exists tl. split; [exact Hl|lia].
Qed.
Lemma wi_weaken now last first st : WI true now last first st -> WI false now last first st.
Proof.
  destruct st as [s t]. intros (l' & th & T & L & O & P & V & H). exists l', th. splits; auto.
  destruct H as [H|[(Ha & Hs & tl & st & x1 & fin & Hl & Hby & Hx1 & _ & HS)|(mo & ss & H1 & H2 & H3 & H4 & _ & H5)]];
    [now left|right; left|right; right; exists mo, ss; splits; auto; discriminate].
  split; [exact Ha|]. split; [exact Hs|]. exists tl, st, x1, fin. split; [exact Hl|]. split; [exact Hby|]. split; [exact Hx1|]. split; [discriminate|exact HS].
Qed.
Lemma wi_tick ex now last first s t ext : WI ex now last first (s, t) ->
  let r := tick ext s (v_q (vq_v t)) (vq_p t) in WI ex now last first (fst r, t_setpins vq (vacc EXT) (snd r) t).
Proof.
  intros (l' & th & T & L & O & P & V & H) r.
  assert (Eq : v_q (vq_v t) = h_q (hq_h th)).
  { symmetry. destruct H as [(_ & _ & _ & _ & _ & HR & _)|[(_ & _ & tl & st & x1 & fin & _ & _ & _ & _ & (_ & w & HR & _) & _)|(mo & ss & HR & _)]];
      apply (at_fields dir tb a0 _ _ _ _ _ HR). }
  assert (RG : s_rg (fst r) = s_rg s /\ like s (fst r)).
  { destruct (tick_conf ext s (v_q (vq_v t)) (vq_p t)) as [D|[n D]]; fold r in D; rewrite D; split; try reflexivity;
      [apply like_refl|apply like_cnt]. }
  destruct RG as [RG LK].
  exists (l' ++ [TTick ext]), (t_setpins hq X (snd r) th). split.
  { eapply trun_snoc; [exact T|]. cbn [tstep]. unfold r. now rewrite Eq, V. }
  split; [eapply like_trans; eassumption|]. split; [exact O|]. split; [exact P|]. split; [reflexivity|].
  assert (ST : isRampGeneratorActive (s_rg s) = true -> static s th -> static (fst r) (t_setpins hq X (snd r) th)).
  { intros Ha Hs. unfold r at 1. rewrite tick_active by exact Ha. exact Hs. }
  destruct H as [(Ha & Hs & H)|[(Ha & Hs & H)|H]].
  - left. rewrite RG. split; [exact Ha|]. split; [auto|exact H].
  - right. left. rewrite RG. split; [exact Ha|]. split; [auto|exact H].
  - right. right. rewrite RG. exact H.
Qed.
Lemma wi_fill now last first s t ext fuel old ys fin : WI true now last first (s, t) -> in_time now ys fin ->
  match last with Some tl => fin < tl + B | None => True end -> enables ext s1 -> PL <= Z.of_nat fuel * mm ->
  exists s' w', fill_queue A wq wacc ext (fun _ => false) fuel old s (mkWq t ys now fin) = Some (s', w') /\
    WI false fin (Some now) (Some (match first with Some f1 => f1 | None => fin end)) (s', wq_t w').
Proof.
  intros (l' & th & T & L & O & P & V & H) Ht Hl He Hfu. pose proof (in_time_le _ _ _ Ht) as Hnf.
  destruct (isRampGeneratorActive (s_rg s)) eqn:Ha.
  2:{ exists s, (mkWq t ys now fin). split; [unfold fill_queue; rewrite Ha; reflexivity|].
    exists l', th. splits; auto. destruct H as [(? & _)|[(? & _)|(mo & ss & HR & Hss & Hi & Hby & _)]]; try congruence.
    right. right. exists mo, ss. splits; auto; [|discriminate].
    eapply Forall_impl; [|exact Hby]. intros p (f1 & -> & Hf). exists f1. auto. }
  assert (G : exists o, static s th /\ Rw dir tb a0 mm o now fin (t_ignore wq wacc false (mkWq t ys now fin)) (t_ignore hq X false th)
     /\ (o = None -> rest (tqueue th) = [] /\ first = None) /\ (forall st, o = Some st -> by_first first st)).
  { destruct H as [(_ & Hs & El & El1 & Hb & HR & Hr)|[(_ & Hs & tl & st & x1 & fi & El & Hby & Hx1 & Hx2 & HS & HB)|(mo & ss & HR & Hss & Hi & _ & _ & [Hl2|(tl & Hl2 & Hb)])]].
    - exists None. split; [exact Hs|]. destruct (at_fields dir tb a0 _ _ _ _ _ HR) as (F1 & _).
      split; [|split; [intros _; unfold tqueue; rewrite F1; auto|discriminate]].
      split; [|splits; auto; cbn; lia].
      split; [split; [exact O|]; split; [|reflexivity]|].
      { change (Forall (fun c => mm <= c_ticks c) (rest (v_q (vq_v t)))). rewrite Hr. constructor. }
      split; [exact (at_ignore EXT dir tb a0 false _ _ _ _ _ HR)|exact Hb].
    - subst last. exists (Some st). split; [exact Hs|]. split; [|split; [discriminate|intros st' E; injection E as <-; exact Hby]].
      specialize (Hx2 eq_refl). subst x1. split; [|splits; auto; cbn; lia].
      destruct HS as ((C1 & C2 & _) & w & HR & K1 & K2). split; [split; [exact C1|]; split; [exact C2|reflexivity]|].
      exists w. split; [exact (at_ignore EXT dir tb a0 false _ _ _ _ _ HR)|]. split; [exact K1|].
      change (fin < last_at (vq_v t)). lia.
    - congruence.
    - subst last. lia. }
  destruct G as (o & Hs & HR & Hn & Hfi). destruct Hs as (k & cs & I1 & I2 & I3 & I4 & I5 & I6).
  destruct (pass_core dir tb a0 mm Hmm now PL HPL o fin _ th m s ext fuel old k cs HR eq_refl I1 I2 I3 I4
     (enables_like _ _ _ L He) I5 Hfu Ha I6 (fun E => proj1 (Hn E))) as (s2 & w1 & need & s' & th' & ws & k' & cs' & K1 & -> & K2 & K3 & K4 & K5 & K6 & K7 & K8 & K9 & K10).
  cbv zeta in K7, K8, K9, K10.
  exists s2, (if need then fst (w_null true w1) else w1). split.
  { unfold fill_queue. rewrite Ha, I6. cbn [negb]. change (MOVE_OK =? MOVE_OK) with true. cbn [negb]. cbv zeta in K1 |- *.
    change (t_q wq wacc (t_ignore wq wacc false (mkWq t ys now fin))) with
      (v_q (vq_v (wq_t (t_ignore wq wacc false (mkWq t ys now fin))))). rewrite K1. destruct need; reflexivity. }
  set (w' := if need then fst (w_null true w1) else w1) in *. 
  exists (l' ++ [TFill ext (fun _ => false) fuel old ws]), th'.
  split; [eapply trun_snoc; [exact T|exact K2]|]. split; [eapply like_trans; eassumption|].
  assert (ST : static s2 th').
  { exists k', cs'. splits; auto; [eapply conf24_like; eassumption|eapply pconf_like; eassumption|rewrite (lk_valid _ _ K5); exact I6]. }
  destruct K10 as [(st & fi & Ho & HS & HB)|(Ho & Hi & HS & Hr)].
  - assert (Hby : by_first (Some match first with Some f1 => f1 | None => fin end) st).
    { eexists. split; [reflexivity|]. destruct Ho as [Ho|[Ho Hst]].
      - destruct (Hfi _ Ho) as (f1 & -> & Hf). exact Hf.
      - rewrite (proj2 (Hn Ho)). lia. }
    split; [apply HS|]. splits; auto. destruct (isRampGeneratorActive (s_rg s2)) eqn:Ea.
    + right. left. splits; auto. destruct (HB eq_refl) as [HB1 HB2].
      assert (now + B <= fi + 1).
      { rewrite HB2. destruct (SI_fields _ _ _ _ _ _ _ _ _ HS) as (Q5 & _ & _ & Q6).
        assert (LG : Forall (fun c => mm <= c_ticks c) (rest (v_q (vq_v (wq_t w'))))) by (apply HS).
        eapply far_bound; eauto; [eapply rest_short; eassumption|eapply run_ne; exact HS|].
        rewrite <- Q5 in *. intros K. eapply HBF; [exact (trun_snoc _ _ _ (TFill ext (fun _ => false) fuel old ws) _ T K2)|exact Ea|apply K3|exact LG|exact K]. }
      exists now, st, (wq_now w'), fi. splits; auto; [lia|discriminate].
    + right. right. destruct HS as (_ & w & HR2 & _). exists MRun, [(st, w)]. splits; auto; discriminate.
  - split; [apply HS|]. splits; auto. right. right. destruct HS as (_ & HR2 & _). exists MIdle, []. splits; auto. discriminate.
Qed.
Lemma wi_run : forall l now last first st, WI false now last first st -> punctual B now last l -> Forall (able mm PL s1) l ->
  exists y, wtrun l st = Some y /\
    WI false (clock now l) (last_begin last l) (match first with Some f => Some f | None => first_end l end) y.
Proof.
  induction l as [|e l IH]; intros now last first [s t] H Hp Hab; cbn [wtrun]; [exists (s, t); split; [reflexivity|destruct first; exact H]|].
  inversion Hab as [|? ? Ha Hab']; subst. destruct e as [ext fuel old t0 ys fin|ext x|x]; cbn [punctual able wtstep clock last_begin first_end] in *.
  - destruct Hp as (P1 & P2 & P3 & P4). destruct Ha as [He Hfu].
    destruct (wi_fill t0 last first s (serve t0 t) ext fuel old ys fin (wi_serve _ _ _ _ _ _ H P1) P2 P3 He Hfu) as (s' & w' & E & W).
    rewrite E. destruct (IH _ _ _ _ W P4 Hab') as (y & Y1 & Y2). exists y. split; [exact Y1|]. destruct first; exact Y2.
  - destruct Hp as (P1 & P2). exact (IH _ _ _ _ (wi_weaken _ _ _ _ (wi_tick _ _ _ _ _ _ ext (wi_serve _ _ _ _ _ _ H P1))) P2 Hab').
  - destruct Hp as (P1 & P2). exact (IH _ _ _ _ (wi_weaken _ _ _ _ (wi_serve _ _ _ _ _ _ H P1)) P2 Hab').
Qed.
Lemma wi_run_serve l x now last st : WI false now last None st -> punctual B now last (l ++ [WServe x]) -> Forall (able mm PL s1) l ->
  exists y, wtrun (l ++ [WServe x]) st = Some y /\ WI true x (last_begin last l) (first_end l) y.
Proof.
  intros H Hp Hab. apply punctual_app in Hp as [P1 [P2 _]].
  destruct (wi_run l now last None st H P1 Hab) as ([s t] & Y1 & Y2). exists (s, serve x t).
  rewrite wtrun_app, Y1. split; [reflexivity|]. exact (wi_serve _ _ _ _ _ _ Y2 P2).
Qed.
End Schedule.
(** ** A punctual task *)
(** The pulses are those of one uninterrupted run of the queue, which began at a time not
    before [t]: its commands are commands of [cs] in their order and pauses *)
Definition in_session (dir : bool -> option bool) (t : Z) (cs : list command) (log : list pulse) (all : Prop) : Prop :=
  exists start w coming done rest, t <= start /\ log ++ coming = pulses (start + 10) dir w
    /\ cs = done ++ rest /\ woven done w /\ (all -> coming = [] /\ rest = []).
Lemma one_session up cs pos s1 th t l' s' th' mo ss v log : carries A EXT up cs pos (s1, th) ->
  trun A EXT l' (s1, th) = Some (s', th') ->
  rel_at EXT (dir_of (tqueue th)) t (h_acc (hq_h th)) mo ss v log (hq_h th') -> (length ss <= 1)%nat ->
  (mo = MIdle -> rest (v_q v) = []) ->
  in_session (dir_of (tqueue th)) t cs log
    (isRampGeneratorActive (s_rg s') = false /\ v_irq v = false /\ pend A (v_q v) = []).
Proof.
  intros Hc T (Hmode & (Ho & Ha) & _ & (w' & W1 & W2)) Hs Hi.
  destruct (Hc l') as (y' & done & rest' & w & T' & Ecs & Hw & Hacc & _ & Hend).
  rewrite T in T'. injection T' as <-.
  unfold accepted_cmds in Hacc. cbn [snd] in Hacc. rewrite W1 in Hacc. apply app_inv_head in Hacc. subst w'.
  assert (HW : exists coming, w = cmds ss /\ log ++ coming = flat (dir_of (tqueue th)) ss /\ (v_irq v = false -> coming = [])).
  { pose proof Hmode as (_ & _ & _ & _ & _ & _ & M1). destruct mo.
    - destruct Ha as (A1 & A2 & _). rewrite W1 in A2. apply app_inv_head in A2. destruct M1 as [M1 _].
      eexists. split; [exact A2|]. split; [exact A1|]. congruence.
    - destruct Ha as (A1 & A2 & _). rewrite W1 in A2. apply app_inv_head in A2. destruct M1 as [M1 _].
      eexists. split; [exact A2|]. split; [exact A1|]. congruence.
    - destruct Ha as (A1 & A2 & _). rewrite W1, (Hi eq_refl), app_nil_r in A2. apply app_inv_head in A2.
      exists []. rewrite app_nil_r. auto. }
  destruct HW as (coming & -> & B2 & B3).
  assert (E : exists start, t <= start /\ flat (dir_of (tqueue th)) ss = pulses (start + 10) (dir_of (tqueue th)) (cmds ss)).
  { destruct ss as [|[st w] [|? ?]]; [exists t; split; [lia|reflexivity]| |cbn [length] in Hs; lia].
    exists st. cbn [ordered] in Ho. split; [lia|]. unfold flat, cmds. cbn. now rewrite !app_nil_r. }
  destruct E as (start & E1 & E2). exists start, (cmds ss), coming, done, rest'. rewrite <- E2. splits; auto.
  intros (F1 & F2 & F3). split; [auto|]. apply (Hend F1).
Qed.

Lemma punctual_stack up cs pos M s1 th t n mm B : good A th -> AvrIsr.plain EXT (tqueue th) ->
  q_running (tqueue th) = false -> pend A (tqueue th) = [] -> 0 <= M ->
  Forall (valid_cmd A) cs -> Forall (moves_only up) cs -> speed_ok M cs -> carries A EXT up cs pos (s1, th) ->
  tinv A (q_max (tqueue th)) n cs (s1, th) -> (n <= S (length cs))%nat -> Forall (fun c => mm <= c_ticks c) cs ->
  0 <= mm -> conf24 A s1 -> pconf mm s1 -> 0 < s_plan s1 <= 2147483648 -> checkValidConfig (rg_params (s_rg s1)) = MOVE_OK ->
  B <= s_plan s1 - 65535 -> full_lasts mm B s1 th ->
  forall tasks, punctual (B) t None tasks -> Forall (able mm (s_plan s1) s1) tasks ->
  exists y, wtrun tasks (s1, v_begin t th) = Some y /\ vq_ok (snd y) = true /\
  let v := vq_v (snd y) in let log := vq_log (snd y) in
  let all := isRampGeneratorActive (s_rg (fst y)) = false /\ v_irq v = false /\ pend A (v_q v) = [] in
  on_the_pin (dir_of (tqueue th) up) M t (total_steps cs) log
  /\ in_session (dir_of (tqueue th)) t cs log all
  /\ (all -> Z.of_nat (length log) = total_steps cs /\ forall done_p, getCurrentPosition A done_p (v_q v) = pos).
Proof.
  intros Hg Hpl Hr Hp HM Hv Hm Hsp Hc HI Hn Hlong Hmm H24 Hpc HPL Hval HBPL HBF tasks Hpu Hab.
  set (PL := s_plan s1) in *.
  set (dir := dir_of (tqueue th)). set (a0 := h_acc (hq_h th)).
  pose proof (begin_at EXT t th Hg Hpl Hr Hp) as HR.
  assert (Er : rest (v_q (vq_v (v_begin t th))) = []) by (unfold rest; change (v_q (vq_v (v_begin t th))) with (tqueue th); now rewrite Hp).
  assert (W0 : WI dir t a0 mm PL (q_max (tqueue th)) s1 th B false t None None (s1, v_begin t th)).
  { exists [], th. split; [reflexivity|]. split; [apply like_refl|]. split; [reflexivity|]. split; [first [reflexivity | exact (proj2 Hg)]|]. split; [reflexivity|].
    destruct (isRampGeneratorActive (s_rg s1)) eqn:Ea.
    - left. splits; auto; try lia. exists n, cs. split; [exact HI|]. split; [|splits; auto].
      destruct HI as (_ & _ & _ & I4 & I5 & _). split; [exact I4|]. split; [exact Hn|]. split; [exact I5|exact Hlong].
    - right. right. exists MIdle, []. split; [exact HR|]. splits; auto. }
  destruct (wi_run dir t a0 mm PL Hmm HPL (q_max (tqueue th)) s1 th B HBPL HBF tasks t None None _ W0 Hpu Hab) as (y & E & W).
  exists y. split; [exact E|]. destruct y as [s' t']. destruct W as (l' & th' & T & L & O & P & V & H). cbn [fst snd].
  split; [exact O|].
  assert (G : exists mo ss, rel_at EXT dir t a0 mo ss (vq_v t') (vq_log t') (hq_h th') /\ (length ss <= 1)%nat /\
    (mo = MIdle -> rest (v_q (vq_v t')) = [])).
  { destruct H as [(_ & _ & _ & _ & _ & H1 & H2)|[(_ & _ & tl & st & x1 & fin & _ & _ & _ & _ & (_ & w & H1 & _) & _)|(mo & ss & H1 & H2 & H3 & _)]].
    - exists MIdle, []. auto.
    - exists MRun, [(st, w)]. splits; auto. discriminate.
    - exists mo, ss. auto. }
  destruct G as (mo & ss & G1 & G2 & G3).
  destruct (stack_end EXT up cs pos M s1 th t l' s' th' mo ss _ _ HM Hv Hm Hsp Hc T G1) as (K1 & _ & K3).
  cbv zeta. splits; auto.
  - eapply one_session; eassumption.
  - intros (F1 & F2 & F3). auto.
Qed.

(** ** The exact pulses, and the end of the move *)
Lemma dsum_prefix w r : Forall (fun c => 0 <= c_ticks c) r -> dsum w <= dsum (w ++ r).
Proof.
  intros H. rewrite dsum_app. enough (0 <= dsum r) by lia.
  induction H as [|c r Hc _ IH]; cbn [dsum]; [lia|]. unfold cdur. nia.
Qed.
Lemma pauses_nonneg dd : 0 <= dd -> forall cs u, Forall (valid_cmd A) cs -> Forall (fun c => 0 <= c_ticks c) (with_pauses dd u cs).
Proof.
  intros Hd. induction cs as [|c cs IH]; intros u Hv; [constructor|]. inversion Hv as [|? ? V1 V2]; subst. cbn [with_pauses].
  destruct V1 as (V1 & V1' & V1''). change (MIN_CMD_TICKS A) with 640 in V1. apply Forall_app. split; [|constructor; [lia|auto]].
  destruct (Bool.eqb _ _); [constructor|]. destruct (dd =? 0); [constructor|]. destruct (c_steps c =? 0); [constructor|].
  constructor; [exact Hd|constructor].
Qed.
(** The pulses so far are the first ones of the train which begins 10 ticks after [start] *)
Definition exact_train (dir : bool -> option bool) (t : Z) (first : option Z) (W : list command) (log : list pulse) (all : Prop) : Prop :=
  exists start coming, t <= start /\ (log <> [] -> exists f1, first = Some f1 /\ start <= f1)
    /\ log ++ coming = pulses (start + 10) dir W /\ (all -> coming = []).
Lemma exact_session cs s1 th t l' s' th' mo ss v log first : exact_carries A EXT cs (s1, th) ->
  trun A EXT l' (s1, th) = Some (s', th') ->
  rel_at EXT (dir_of (tqueue th)) t (h_acc (hq_h th)) mo ss v log (hq_h th') -> (length ss <= 1)%nat ->
  (mo = MIdle -> rest (v_q v) = []) -> Forall (fun p => by_first first (fst p)) ss ->
  exact_train (dir_of (tqueue th)) t first (with_pauses (s_dirdelay s1) (up_of th) cs) log
    (isRampGeneratorActive (s_rg s') = false /\ v_irq v = false /\ pend A (v_q v) = []).
Proof.
  intros Hc T (Hmode & (Ho & Ha) & _ & (w' & W1 & W2)) Hs Hi Hby.
  destruct (Hc l') as (y' & w & r & T' & Hacc & Hw & Hend). rewrite T in T'. injection T' as <-. cbn [fst snd] in Hacc, Hw, Hend.
  unfold acc_of in Hacc. rewrite W1 in Hacc. apply app_inv_head in Hacc. subst w'.
  assert (HW : exists coming, w = cmds ss /\ log ++ coming = flat (dir_of (tqueue th)) ss /\ (v_irq v = false -> coming = [])).
  { pose proof Hmode as (_ & _ & _ & _ & _ & _ & M1). destruct mo.
    - destruct Ha as (A1 & A2 & _). rewrite W1 in A2. apply app_inv_head in A2. destruct M1 as [M1 _].
      eexists. split; [exact A2|]. split; [exact A1|]. congruence.
    - destruct Ha as (A1 & A2 & _). rewrite W1 in A2. apply app_inv_head in A2. destruct M1 as [M1 _].
      eexists. split; [exact A2|]. split; [exact A1|]. congruence.
    - destruct Ha as (A1 & A2 & _). rewrite W1, (Hi eq_refl), app_nil_r in A2. apply app_inv_head in A2.
      exists []. rewrite app_nil_r. auto. }
  destruct HW as (coming & Ew & B2 & B3). unfold exact_train. rewrite Hw, Ew.
  destruct ss as [|[st w0] [|? ?]]; [| |cbn [length] in Hs; lia].
  - cbn in B2. apply app_eq_nil in B2 as [-> ->]. exists t, (pulses (t + 10) (dir_of (tqueue th)) (cmds [] ++ r)).
    split; [lia|]. split; [congruence|]. split; [reflexivity|]. intros (F1 & _). now rewrite (Hend F1).
  - inversion Hby as [|? ? Hb1 _]; subst. cbn [ordered] in Ho. unfold flat, cmds in *. cbn [map concat fst snd] in *. rewrite app_nil_r in *.
    exists st, (coming ++ pulses (end_time (st + 10) w0) (dir_of (tqueue th)) r). split; [lia|]. split; [auto|].
    split; [rewrite app_assoc, B2; symmetry; apply pulses_app|].
    intros (F1 & F2 & _). rewrite (B3 F2), (Hend F1). reflexivity.
Qed.

Lemma exact_stack cs pos M s1 th t n mm B up : good A th -> AvrIsr.plain EXT (tqueue th) ->
  q_running (tqueue th) = false -> pend A (tqueue th) = [] -> 0 <= M ->
  Forall (valid_cmd A) cs -> Forall (moves_only up) cs -> speed_ok M cs -> carries A EXT up cs pos (s1, th) -> exact_carries A EXT cs (s1, th) ->
  tinv A (q_max (tqueue th)) n cs (s1, th) -> (n <= S (length cs))%nat -> Forall (fun c => mm <= c_ticks c) cs ->
  0 <= mm -> conf24 A s1 -> pconf mm s1 -> 0 < s_plan s1 <= 2147483648 -> checkValidConfig (rg_params (s_rg s1)) = MOVE_OK ->
  B <= s_plan s1 - 65535 -> full_lasts mm B s1 th ->
  let W := with_pauses (s_dirdelay s1) (up_of th) cs in
  forall tasks x, punctual (B) t None (tasks ++ [WServe x]) -> Forall (able mm (s_plan s1) s1) tasks ->
  exists y, wtrun (tasks ++ [WServe x]) (s1, v_begin t th) = Some y /\ vq_ok (snd y) = true /\
  let v := vq_v (snd y) in let log := vq_log (snd y) in
  let all := isRampGeneratorActive (s_rg (fst y)) = false /\ v_irq v = false /\ pend A (v_q v) = [] in
  exact_train (dir_of (tqueue th)) t (first_end tasks) W log all
  /\ (forall f1 tl, first_end tasks = Some f1 -> last_begin None tasks = Some tl -> x < tl + B ->
      end_time (f1 + 10) W <= x -> all /\ Z.of_nat (length log) = total_steps cs /\ forall done_p, getCurrentPosition A done_p (v_q v) = pos).
Proof.
  intros Hg Hpl Hr Hp HM Hv Hm Hsp Hc Hx HI Hn Hlong Hmm H24 Hpc HPL Hval HBPL HBF W tasks x Hpu Hab.
  set (PL := s_plan s1) in *.
  set (dir := dir_of (tqueue th)). set (a0 := h_acc (hq_h th)).
  pose proof (begin_at EXT t th Hg Hpl Hr Hp) as HR.
  assert (Er : rest (v_q (vq_v (v_begin t th))) = []) by (unfold rest; change (v_q (vq_v (v_begin t th))) with (tqueue th); now rewrite Hp).
  assert (W0 : WI dir t a0 mm PL (q_max (tqueue th)) s1 th B false t None None (s1, v_begin t th)).
  { exists [], th. split; [reflexivity|]. split; [apply like_refl|]. split; [reflexivity|]. split; [first [reflexivity | exact (proj2 Hg)]|]. split; [reflexivity|].
    destruct (isRampGeneratorActive (s_rg s1)) eqn:Ea.
    - left. splits; auto; try lia. exists n, cs. split; [exact HI|]. split; [|splits; auto].
      destruct HI as (_ & _ & _ & I4 & I5 & _). split; [exact I4|]. split; [exact Hn|]. split; [exact I5|exact Hlong].
    - right. right. exists MIdle, []. split; [exact HR|]. splits; auto. }
  destruct (wi_run_serve dir t a0 mm PL Hmm HPL (q_max (tqueue th)) s1 th B HBPL HBF tasks x t None _ W0 Hpu Hab) as (y & E & WW).
  exists y. split; [exact E|]. destruct y as [s' t']. destruct WW as (l' & th' & T & L & O & P & V & H). cbn [fst snd].
  split; [exact O|]. cbv zeta.
  assert (G : exists mo ss, rel_at EXT dir t a0 mo ss (vq_v t') (vq_log t') (hq_h th') /\ (length ss <= 1)%nat /\
    (mo = MIdle -> rest (v_q (vq_v t')) = []) /\ Forall (fun p => by_first (first_end tasks) (fst p)) ss /\
    (forall tl, last_begin None tasks = Some tl -> x < tl + B -> isRampGeneratorActive (s_rg s') = false \/ (mo = MRun /\ x < v_next (vq_v t'))) /\
    (due x (vq_v t') = false)).
  { destruct H as [(_ & _ & H0 & _ & _ & H1 & H2)|[(_ & _ & tl & st & x1 & fin & E1 & Hby & _ & Ex & (_ & w & H1 & H2 & _) & _)|(mo & ss & H1 & H2 & H3 & H4 & H5 & H6)]].
    - exists MIdle, []. splits; auto; [congruence|]. destruct H1 as ((_ & _ & _ & _ & _ & _ & M1 & _) & _). unfold due. now rewrite M1.
    - specialize (Ex eq_refl). subst x1. exists MRun, [(st, w)]. splits; auto; [discriminate|].
      unfold due. destruct (Z.leb_spec (v_next (vq_v t')) x) as [K|K]; [lia|apply andb_false_r].
    - exists mo, ss. splits; auto. intros tl El Hlt. destruct H6 as [H6|(tl' & El' & Hle)]; [now left|]. rewrite El in El'. injection El' as <-. lia. }
  destruct G as (mo & ss & G1 & G2 & G3 & G4 & G5 & G6).
  split; [eapply exact_session; eassumption|].
  intros f1 tl Ef El Hlt Hle. rewrite end_dsum in Hle.
  assert (ALL : isRampGeneratorActive (s_rg s') = false /\ v_irq (vq_v t') = false /\ pend A (v_q (vq_v t')) = []).
  { destruct (Hx l') as (y' & w & r & T' & Hacc & Hw & Hend). rewrite T in T'. injection T' as <-. cbn [fst snd] in Hacc, Hw, Hend.
    fold W in Hw.
    assert (NO : mo <> MIdle -> x < v_next (vq_v t') -> False).
    { intros Hmo Hxn. pose proof G1 as (Hmode & (Ho & Ha) & _).
      assert (Ha' : h_acc (hq_h th') = a0 ++ cmds ss /\ end_time (v_next (vq_v t')) (rest (v_q (vq_v t'))) = last_end t ss /\ ss <> []).
      { destruct mo; [| |congruence]; destruct Ha as (_ & A2 & A3 & A4); auto. }
      destruct Ha' as (A2 & A3 & A4). unfold acc_of in Hacc. rewrite A2 in Hacc. apply app_inv_head in Hacc.
      destruct ss as [|[st w0] [|? ?]]; [congruence| |cbn [length] in G2; lia].
      unfold cmds in Hacc. cbn [map concat fst snd] in Hacc. rewrite app_nil_r in Hacc. subst w0.
      cbn [last_end] in A3. rewrite !end_dsum in A3.
      inversion G4 as [|? ? (f & Ef' & Hf) _]; subst. cbn [fst] in Hf. rewrite Ef in Ef'. injection Ef' as <-.
      assert (D1 : 0 <= dsum (rest (v_q (vq_v t')))).
      { destruct mo; [| |congruence].
        - destruct (at_fields dir t a0 _ _ _ _ _ G1) as (F1 & _ & _ & F2). rewrite <- F1. pose proof (ticks_rest dir _ F2). lia.
        - rewrite (drain_rest EXT _ _ Hmode). cbn. lia. }
      assert (D2 : dsum w <= dsum W).
      { rewrite Hw. apply dsum_prefix. pose proof (pauses_nonneg (s_dirdelay s1)) as N.
        assert (N0 : 0 <= s_dirdelay s1) by (destruct H24 as ((C1 & _) & _); unfold conf_ok in *; lia).
        specialize (N N0 cs (up_of th) Hv). fold W in N. rewrite Hw in N. apply Forall_app in N. apply N. }
      lia. }
    destruct (G5 tl El Hlt) as [Hia|[-> Hxn]]; [|exfalso; apply NO; [discriminate|exact Hxn]].
    split; [exact Hia|].
    assert (Emo : mo = MIdle).
    { destruct mo; [exfalso|exfalso|reflexivity]; (apply NO; [discriminate|]);
        unfold due in G6; destruct G1 as ((_ & _ & _ & _ & _ & _ & M1 & _) & _); rewrite M1 in G6; cbn [andb] in G6;
        apply Z.leb_gt in G6; exact G6. }
    subst mo. destruct G1 as ((_ & _ & _ & _ & _ & _ & M1 & _) & _). split; [exact M1|].
    specialize (G3 eq_refl). unfold rest in G3. destruct (pend A (v_q (vq_v t'))); [reflexivity|discriminate]. }
  split; [exact ALL|]. destruct ALL as (F1 & F2 & F3).
  destruct (stack_end EXT up cs pos M s1 th t l' s' th' mo ss _ _ HM Hv Hm Hsp Hc T G1) as (_ & _ & K3).
  auto.
Qed.

(** ** moveTo and move *)
Lemma moveTo_punctual garbage p ep m s0 evs a M mm pos : conf_ok s0 -> Forall fev_ok evs -> -2147483648 <= pos < 2147483648 ->
  let x := frun A EXT evs (dinit EXT garbage p ep m s0) in
  let q := fqueue x in
  let d := i32 (pos - qe_pos (q_end q)) in
  let PL := s_plan (fst x) in
  AvrIsr.plain EXT q -> q_running q = false -> pend A q = [] -> ready_to_move A (fst x) q a M d ->
  conf24 A (fst x) -> pconf mm (fst x) -> 0 <= mm <= Z.min M 32767 -> 0 < PL <= 2147483648 ->
  exists s1 cs, s_moveTo pos (fst x) q = (s1, MOVE_OK) /\ total_steps cs = Z.abs d /\
  forall t tasks, punctual (BB mm PL) t None tasks -> Forall (able mm PL (fst x)) tasks ->
  exists y, wtrun tasks (s1, v_begin t (snd x)) = Some y /\ vq_ok (snd y) = true /\
  let v := vq_v (snd y) in let log := vq_log (snd y) in
  let all := isRampGeneratorActive (s_rg (fst y)) = false /\ v_irq v = false /\ pend A (v_q v) = [] in
  on_the_pin (dir_of q (0 <? d)) M t (Z.abs d) log
  /\ in_session (dir_of q) t cs log all
  /\ (all -> Z.of_nat (length log) = Z.abs d /\ forall done_p, getCurrentPosition A done_p (v_q v) = pos).
Proof.
  intros Hc He Hpos x q d PL Hpl Hr Hp Hrd H24 Hpc Hmm HPL.
  destruct (dinit_good EXT garbage p ep m s0 evs Hc He) as [Hg _]. fold x in Hg.
  destruct (moveTo_planned A EXT HA _ _ a M Hg pos Hpos Hrd) as (s1 & cs & n & H1 & H2 & H3 & H4 & H5 & (H6 & H7 & H8) & H9 & _).
  exists s1, cs. split; [exact H1|]. split; [exact H2|]. intros t tasks Hpu Hab.
  pose proof (rm_M _ _ _ _ _ _ Hrd) as RM. change (MIN_CMD_TICKS A) with 640 in RM.
  change (fqueue x) with (tqueue (snd x)) in *.
  assert (LK : like (fst x) s1 /\ s_plan s1 = PL).
  { unfold s_moveTo in H1. destruct (rg_moveTo _ _ _) as [g1 r] eqn:E. injection H1 as <- _. split; [|reflexivity].
    apply like_rg. exact (moveTo_valid _ _ _ _ _ E). }
  destruct LK as [LK EP].
  pose proof (punctual_stack (0 <? d) cs pos M s1 (snd x) t n mm (BB mm PL) Hg Hpl Hr Hp ltac:(lia) H3 H4 H5 H9 H6 H7) as K.
  rewrite H2, EP in K. apply K; auto; try lia.
  - eapply Forall_impl; [|exact H8]. intros c. unfold at_least. lia.
  - eapply conf24_like; eassumption.
  - eapply pconf_like; eassumption.
  - rewrite (lk_valid _ _ LK). apply (rm_conf _ _ _ _ _ _ Hrd).
  - unfold BB. lia.
  - apply full_15. lia.
  - eapply Forall_impl; [|exact Hab]. intros e. destruct e; cbn [able]; auto. intros [L1 L2]. split; [|exact L2]. eapply enables_like; eassumption.
Qed.
Lemma move_punctual garbage p ep m s0 evs a M mm delta : conf_ok s0 -> Forall fev_ok evs ->
  -2147483648 <= delta < 2147483648 -> delta <> 0 ->
  let x := frun A EXT evs (dinit EXT garbage p ep m s0) in
  let q := fqueue x in
  let g := s_rg (fst x) in
  let target := i32 (base_target g (q_end q) + pending_move g + delta) in
  let d := i32 (target - qe_pos (q_end q)) in
  let PL := s_plan (fst x) in
  AvrIsr.plain EXT q -> q_running q = false -> pend A q = [] -> ready_to_move A (fst x) q a M d ->
  (s_dirpin (fst x) = PIN_UNDEFINED -> 0 <= delta) ->
  conf24 A (fst x) -> pconf mm (fst x) -> 0 <= mm <= Z.min M 32767 -> 0 < PL <= 2147483648 ->
  exists s1 cs, s_move delta (fst x) = (s1, MOVE_OK) /\ total_steps cs = Z.abs d /\
  forall t tasks, punctual (BB mm PL) t None tasks -> Forall (able mm PL (fst x)) tasks ->
  exists y, wtrun tasks (s1, v_begin t (snd x)) = Some y /\ vq_ok (snd y) = true /\
  let v := vq_v (snd y) in let log := vq_log (snd y) in
  let all := isRampGeneratorActive (s_rg (fst y)) = false /\ v_irq v = false /\ pend A (v_q v) = [] in
  on_the_pin (dir_of q (0 <? d)) M t (Z.abs d) log
  /\ in_session (dir_of q) t cs log all
  /\ (all -> Z.of_nat (length log) = Z.abs d /\ forall done_p, getCurrentPosition A done_p (v_q v) = target).
Proof.
  intros Hc He Hpos Hz x q g target d PL Hpl Hr Hp Hrd Hdp H24 Hpc Hmm HPL.
  destruct (dinit_good EXT garbage p ep m s0 evs Hc He) as [Hg _]. fold x in Hg.
  destruct (move_planned A EXT HA _ _ a M Hg delta Hpos Hz Hrd Hdp) as (s1 & cs & n & H1 & H2 & H3 & H4 & H5 & (H6 & H7 & H8) & H9 & _).
  exists s1, cs. split; [exact H1|]. split; [exact H2|]. intros t tasks Hpu Hab.
  pose proof (rm_M _ _ _ _ _ _ Hrd) as RM. change (MIN_CMD_TICKS A) with 640 in RM.
  change (fqueue x) with (tqueue (snd x)) in *.
  assert (LK : like (fst x) s1 /\ s_plan s1 = PL).
  { unfold s_move in H1. destruct (_ && _); [discriminate|]. destruct (rg_move _ _) as [g1 r] eqn:E. injection H1 as <- _. split; [|reflexivity].
    apply like_rg. exact (move_valid _ _ _ _ E). }
  destruct LK as [LK EP].
  pose proof (punctual_stack (0 <? d) cs target M s1 (snd x) t n mm (BB mm PL) Hg Hpl Hr Hp ltac:(lia) H3 H4 H5 H9 H6 H7) as K.
  unfold d, target, g, q in *. rewrite H2, EP in K. apply K; auto; try lia.
  - eapply Forall_impl; [|exact H8]. intros c. unfold at_least. lia.
  - eapply conf24_like; eassumption.
  - eapply pconf_like; eassumption.
  - rewrite (lk_valid _ _ LK). apply (rm_conf _ _ _ _ _ _ Hrd).
  - unfold BB. lia.
  - apply full_15. lia.
  - eapply Forall_impl; [|exact Hab]. intros e. destruct e; cbn [able]; auto. intros [L1 L2]. split; [|exact L2]. eapply enables_like; eassumption.
Qed.
(** ** moveTo and move with enabled outputs *)
Lemma moveTo_on_time garbage p ep m s0 evs a M mm pos : conf_ok s0 -> Forall fev_ok evs -> -2147483648 <= pos < 2147483648 ->
  let x := frun A EXT evs (dinit EXT garbage p ep m s0) in
  let q := fqueue x in
  let d := i32 (pos - qe_pos (q_end q)) in
  let PL := s_plan (fst x) in
  AvrIsr.plain EXT q -> q_running q = false -> pend A q = [] -> ready_to_move A (fst x) q a M d ->
  conf24 A (fst x) -> pconf mm (fst x) -> 0 <= mm <= Z.min M 32767 -> 0 < PL <= 2147483648 ->
  fed (fst x) -> is_external (s_dirpin (fst x)) = false ->
  exists s1 cs, s_moveTo pos (fst x) q = (s1, MOVE_OK) /\ total_steps cs = Z.abs d /\
  let W := with_pauses (s_dirdelay (fst x)) (qe_up (q_end q)) cs in
  forall t tasks xe, punctual (BB mm PL) t None (tasks ++ [WServe xe]) -> Forall (able mm PL (fst x)) tasks ->
  exists y, wtrun (tasks ++ [WServe xe]) (s1, v_begin t (snd x)) = Some y /\ vq_ok (snd y) = true /\
  let v := vq_v (snd y) in let log := vq_log (snd y) in
  let all := isRampGeneratorActive (s_rg (fst y)) = false /\ v_irq v = false /\ pend A (v_q v) = [] in
  exact_train (dir_of q) t (first_end tasks) W log all
  /\ (forall f1 tl, first_end tasks = Some f1 -> last_begin None tasks = Some tl -> xe < tl + BB mm PL ->
      end_time (f1 + 10) W <= xe -> all /\ Z.of_nat (length log) = Z.abs d /\ forall done_p, getCurrentPosition A done_p (v_q v) = pos).
Proof.
  intros Hc He Hpos x q d PL Hpl Hr Hp Hrd H24 Hpc Hmm HPL Hfed Hex.
  destruct (dinit_good EXT garbage p ep m s0 evs Hc He) as [Hg _]. fold x in Hg.
  destruct (moveTo_planned A EXT HA _ _ a M Hg pos Hpos Hrd) as (s1 & cs & n & H1 & H2 & H3 & H4 & H5 & (H6 & H7 & H8) & H9 & _).
  exists s1, cs. split; [exact H1|]. split; [exact H2|]. intros W t tasks xe Hpu Hab.
  pose proof (rm_M _ _ _ _ _ _ Hrd) as RM. change (MIN_CMD_TICKS A) with 640 in RM.
  change (fqueue x) with (tqueue (snd x)) in *.
  assert (LK : like (fst x) s1 /\ s_plan s1 = PL).
  { unfold s_moveTo in H1. destruct (rg_moveTo _ _ _) as [g1 r] eqn:E. injection H1 as <- _. split; [|reflexivity].
    apply like_rg. exact (moveTo_valid _ _ _ _ _ E). }
  destruct LK as [LK EP].
  assert (XC : exact_carries A EXT cs (s1, snd x)).
  { destruct (moveTo_keeps _ _ _ _ _ H1) as (g1 & Eg). eapply (inv_exact A EXT HA); [exact H6| |]; cbn [fst]; rewrite Eg; assumption. }
  pose proof (exact_stack cs pos M s1 (snd x) t n mm (BB mm PL) (0 <? d) Hg Hpl Hr Hp ltac:(lia) H3 H4 H5 H9 XC H6 H7) as K.
  rewrite H2, EP in K. unfold W, q. rewrite <- (lk_dirdelay _ _ LK). change (qe_up (q_end (tqueue (snd x)))) with (up_of (snd x)).
  apply K; auto; try lia.
  - eapply Forall_impl; [|exact H8]. intros c. unfold at_least. lia.
  - eapply conf24_like; eassumption.
  - eapply pconf_like; eassumption.
  - rewrite (lk_valid _ _ LK). apply (rm_conf _ _ _ _ _ _ Hrd).
  - unfold BB. lia.
  - apply full_15. lia.
  - eapply Forall_impl; [|exact Hab]. intros e. destruct e; cbn [able]; auto. intros [L1 L2]. split; [|exact L2]. eapply enables_like; eassumption.
Qed.
Lemma move_on_time garbage p ep m s0 evs a M mm delta : conf_ok s0 -> Forall fev_ok evs ->
  -2147483648 <= delta < 2147483648 -> delta <> 0 ->
  let x := frun A EXT evs (dinit EXT garbage p ep m s0) in
  let q := fqueue x in
  let g := s_rg (fst x) in
  let target := i32 (base_target g (q_end q) + pending_move g + delta) in
  let d := i32 (target - qe_pos (q_end q)) in
  let PL := s_plan (fst x) in
  AvrIsr.plain EXT q -> q_running q = false -> pend A q = [] -> ready_to_move A (fst x) q a M d ->
  (s_dirpin (fst x) = PIN_UNDEFINED -> 0 <= delta) ->
  conf24 A (fst x) -> pconf mm (fst x) -> 0 <= mm <= Z.min M 32767 -> 0 < PL <= 2147483648 ->
  fed (fst x) -> is_external (s_dirpin (fst x)) = false ->
  exists s1 cs, s_move delta (fst x) = (s1, MOVE_OK) /\ total_steps cs = Z.abs d /\
  let W := with_pauses (s_dirdelay (fst x)) (qe_up (q_end q)) cs in
  forall t tasks xe, punctual (BB mm PL) t None (tasks ++ [WServe xe]) -> Forall (able mm PL (fst x)) tasks ->
  exists y, wtrun (tasks ++ [WServe xe]) (s1, v_begin t (snd x)) = Some y /\ vq_ok (snd y) = true /\
  let v := vq_v (snd y) in let log := vq_log (snd y) in
  let all := isRampGeneratorActive (s_rg (fst y)) = false /\ v_irq v = false /\ pend A (v_q v) = [] in
  exact_train (dir_of q) t (first_end tasks) W log all
  /\ (forall f1 tl, first_end tasks = Some f1 -> last_begin None tasks = Some tl -> xe < tl + BB mm PL ->
      end_time (f1 + 10) W <= xe -> all /\ Z.of_nat (length log) = Z.abs d /\ forall done_p, getCurrentPosition A done_p (v_q v) = target).
Proof.
  intros Hc He Hpos Hz x q g target d PL Hpl Hr Hp Hrd Hdp H24 Hpc Hmm HPL Hfed Hex.
  destruct (dinit_good EXT garbage p ep m s0 evs Hc He) as [Hg _]. fold x in Hg.
  destruct (move_planned A EXT HA _ _ a M Hg delta Hpos Hz Hrd Hdp) as (s1 & cs & n & H1 & H2 & H3 & H4 & H5 & (H6 & H7 & H8) & H9 & _).
  exists s1, cs. split; [exact H1|]. split; [exact H2|]. intros W t tasks xe Hpu Hab.
  pose proof (rm_M _ _ _ _ _ _ Hrd) as RM. change (MIN_CMD_TICKS A) with 640 in RM.
  change (fqueue x) with (tqueue (snd x)) in *.
  assert (LK : like (fst x) s1 /\ s_plan s1 = PL).
  { unfold s_move in H1. destruct (_ && _); [discriminate|]. destruct (rg_move _ _) as [g1 r] eqn:E. injection H1 as <- _. split; [|reflexivity].
    apply like_rg. exact (move_valid _ _ _ _ E). }
  destruct LK as [LK EP].
  assert (XC : exact_carries A EXT cs (s1, snd x)).
  { destruct (move_keeps _ _ _ _ H1) as (g1 & Eg). eapply (inv_exact A EXT HA); [exact H6| |]; cbn [fst]; rewrite Eg; assumption. }
  pose proof (exact_stack cs target M s1 (snd x) t n mm (BB mm PL) (0 <? d) Hg Hpl Hr Hp ltac:(lia) H3 H4 H5 H9 XC H6 H7) as K.
  unfold W, d, target, g, q in *. rewrite H2, EP in K. rewrite <- (lk_dirdelay _ _ LK).
  change (qe_up (q_end (tqueue (snd x)))) with (up_of (snd x)). apply K; auto; try lia.
  - eapply Forall_impl; [|exact H8]. intros c. unfold at_least. lia.
  - eapply conf24_like; eassumption.
  - eapply pconf_like; eassumption.
  - rewrite (lk_valid _ _ LK). apply (rm_conf _ _ _ _ _ _ Hrd).
  - unfold BB. lia.
  - apply full_15. lia.
  - eapply Forall_impl; [|exact Hab]. intros e. destruct e; cbn [able]; auto. intros [L1 L2]. split; [|exact L2]. eapply enables_like; eassumption.
Qed.
End WithExt.

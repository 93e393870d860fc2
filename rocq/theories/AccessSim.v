(** * AccessSim: addQueueEntry of the front end on two queues

    A queue whose calls follow those of the queue history ([h_add], [h_null] of StepperHist.v)
    follows it in every call of the front end's addQueueEntry. *)
From Coq Require Import ZArith Bool List Lia ZifyBool.
From Verif Require Import Base RampCalc RampGen Queue QueueFacts QueuePos QueueHist Stepper StepperHist FrontHist FrontProp FrontFill FrontTask.
Import ListNotations.
Open Scope Z_scope.
Ltac Zify.zify_post_hook ::= idtac.

(** the same but for the content of the entries *)
Definition seen (q q' : queue) : Prop := exists E, q = set_ent E q'.
Lemma seen_eq q q' : q = q' -> seen q q'.
Proof. intros ->. exists (q_ent q'). destruct q'. reflexivity. Qed.

Section WithArch.
Variable A : arch.
Variable EXT : bool.
Notation X := (hacc A EXT).
(** the other queue, its states in question, the commands and the starts allowed *)
Variable T : Type.
Variable Y : access T.
Variable R : T -> hq -> Prop.
Variable ok : T -> Prop.
Variable P : command -> Prop.
Variable may_start : Prop.
(** what is known about the circumstances of the calls of the queue history *)
Variable Wok : weather -> Prop.
Hypothesis R_fields : forall t th, R t th -> seen (t_q T Y t) (tqueue th) /\ good A th /\ t_pins T Y t = hq_p th.
Hypothesis R_pins : forall p t th, R t th -> R (t_setpins T Y p t) (t_setpins hq X p th).
Hypothesis sim_add : forall c start t th, R t th -> P c -> (start = true -> may_start) ->
  ok (fst (t_add T Y c start t)) ->
  exists ws th', R (fst (t_add T Y c start t)) th' /\ Forall Wok ws /\
    forall ws2, h_add A EXT c start (set_w (ws ++ ws2) th) = (set_w ws2 th', snd (t_add T Y c start t)).
Hypothesis sim_null : forall start t th, R t th -> (start = true -> may_start) ->
  ok (fst (t_null T Y start t)) ->
  exists ws th', R (fst (t_null T Y start t)) th' /\ Forall Wok ws /\
    forall ws2, h_null A EXT start (set_w (ws ++ ws2) th) = (set_w ws2 th', snd (t_null T Y start t)).
Hypothesis ok_add : forall c start t, ok (fst (t_add T Y c start t)) -> ok t.
Hypothesis ok_null : forall start t, ok (fst (t_null T Y start t)) -> ok t.
Hypothesis ok_pins : forall p t, ok (t_setpins T Y p t) -> ok t.

Local Ltac rdy := repeat (apply Forall_app; split); auto.
(** the pauses which the front end adds are allowed *)
Definition pauses_ok (s : stepper) (c : command) : Prop :=
  (forall th, 0 < s_ondelay s -> let d := on_delay hq X c s th in
     Forall (fun d => P (mkCommand d 0 (c_up c))) (on_pieces (on_fuel d) d)) /\
  (s_dirdelay s <> 0 -> P (dir_pause c s)) /\
  (is_external (s_dirpin s) = true -> P (ext_pause A c)).
Lemma ok_pauses up : forall l t, ok (add_pauses T Y up l t) -> ok t.
Proof.
  induction l as [|d l IH]; intros t H; cbn [add_pauses] in H; [exact H|].
  apply IH in H. now apply ok_add in H.
Qed.
Lemma sim_pauses up : forall l tv th, R tv th -> Forall (fun d => P (mkCommand d 0 up)) l ->
  ok (add_pauses T Y up l tv) ->
  exists ws th', R (add_pauses T Y up l tv) th' /\ Forall Wok ws /\
    forall ws2, add_pauses hq X up l (set_w (ws ++ ws2) th) = set_w ws2 th'.
Proof.
  induction l as [|d l IH]; intros tv th HR Hl Hok; cbn [add_pauses] in *.
  - exists [], th. split; [exact HR|]. split; [constructor|reflexivity].
  - inversion Hl as [|? ? Hd Hl']; subst. pose proof (ok_pauses _ _ _ Hok) as Ho1.
    destruct (sim_add (mkCommand d 0 up) false tv th HR) as (w1 & th1 & R1 & D1 & E1);
      [exact Hd|discriminate|exact Ho1|].
    destruct (IH _ th1 R1 Hl' Hok) as (w2 & th2 & R2 & D2 & E2).
    exists (w1 ++ w2), th2. split; [exact R2|]. split; [rdy|]. intros ws2. rewrite <- app_assoc.
    change (t_add hq X) with (h_add A EXT). rewrite E1. cbn [fst]. apply E2.
Qed.
Lemma ok_first ext busy c start s t : ok (fst (add_first T Y ext busy c start s t)) -> ok t.
Proof.
  unfold add_first. repeat (match goal with |- context [if ?b then _ else _] => destruct b end; cbn [fst]); auto; try apply ok_pins.
  cbv zeta. intros H. apply ok_null in H. apply ok_pauses in H. now apply ok_pins in H.
Qed.
Lemma sim_first ext busy c start s tv th : R tv th -> pauses_ok s c -> (start = true -> may_start) ->
  let r := add_first T Y ext busy c start s tv in
  ok (fst r) ->
  exists ws th', R (fst r) th' /\ Forall Wok ws /\
    forall ws2, add_first hq X ext busy c start s (set_w (ws ++ ws2) th) = (set_w ws2 th', snd r).
Proof.
  intros HR Hs Hst. cbv zeta. destruct (R_fields _ _ HR) as ((E & Eq) & Hg & Ep).
  unfold add_first. rewrite Eq, Ep.
  change (q_max (set_ent E (tqueue th))) with (q_max (tqueue th)).
  change (q_running (set_ent E (tqueue th))) with (q_running (tqueue th)).
  assert (STAY : forall code : Z, exists ws th', R tv th' /\ Forall Wok ws /\
     forall ws2, (set_w (ws ++ ws2) th, code) = (set_w ws2 th', code)).
  { intros code. exists [], th. split; [exact HR|]. split; [constructor|reflexivity]. }
  destruct (c_ticks c <? q_max (tqueue th)) eqn:C1.
  { intros _. destruct (STAY AQE_ERROR_TICKS_TOO_LOW) as (ws & th' & S1 & S3 & S2). exists ws, th'. split; [exact S1|]. split; [rdy|]. intros ws2.
    change (t_q hq X (set_w (ws ++ ws2) th)) with (tqueue th). rewrite C1. apply S2. }
  destruct (negb (s_dirpin s =? PIN_UNDEFINED) && (negb (q_running (tqueue th)) && busy)) eqn:C2.
  { intros _. destruct (STAY AQE_DIR_PIN_IS_BUSY) as (ws & th' & S1 & S3 & S2). exists ws, th'. split; [exact S1|]. split; [rdy|]. intros ws2.
    change (t_q hq X (set_w (ws ++ ws2) th)) with (tqueue th). rewrite C1, C2. apply S2. }
  destruct ((s_dirpin s =? PIN_UNDEFINED) && negb (c_up c)) eqn:C3.
  { intros _. destruct (STAY AQE_ERROR_NO_DIR_PIN_TO_TOGGLE) as (ws & th' & S1 & S3 & S2). exists ws, th'. split; [exact S1|]. split; [rdy|]. intros ws2.
    change (t_q hq X (set_w (ws ++ ws2) th)) with (tqueue th). rewrite C1, C2. apply S2. }
  destruct (s_auto s && (s_cnt s =? 0)) eqn:C4.
  2:{ intros _. destruct (STAY AQE_OK) as (ws & th' & S1 & S3 & S2). exists ws, th'. split; [exact S1|]. split; [rdy|]. intros ws2.
    change (t_q hq X (set_w (ws ++ ws2) th)) with (tqueue th). rewrite C1, C2. apply S2. }
  set (r := enableOutputs ext s (hq_p th)). cbv zeta.
  pose proof (R_pins (fst r) tv th HR) as HR1.
  set (tv1 := t_setpins T Y (fst r) tv) in *. set (th1 := t_setpins hq X (fst r) th) in *.
  assert (PRE : forall ws, t_setpins hq X (fst (enableOutputs ext s (t_pins hq X (set_w ws th)))) (set_w ws th) = set_w ws th1) by reflexivity.
  destruct (negb (snd r)) eqn:C5.
  { intros _. exists [], th1. split; [exact HR1|]. split; [rdy|]. intros ws2.
    change (t_q hq X (set_w ([] ++ ws2) th)) with (tqueue th). rewrite C1, C2.
    change (t_pins hq X (set_w ([] ++ ws2) th)) with (hq_p th). fold r. rewrite C5. reflexivity. }
  destruct (s_ondelay s >? 0) eqn:C6.
  2:{ intros _. exists [], th1. split; [exact HR1|]. split; [rdy|]. intros ws2.
    change (t_q hq X (set_w ([] ++ ws2) th)) with (tqueue th). rewrite C1, C2.
    change (t_pins hq X (set_w ([] ++ ws2) th)) with (hq_p th). fold r. rewrite C5. reflexivity. }
  change (t_null hq X) with (h_null A EXT). intros Hok.
  assert (Ed : on_delay T Y c s tv1 = on_delay hq X c s th1).
  { unfold on_delay. destruct (R_fields _ _ HR1) as ((E1 & Eq1) & _). rewrite Eq1. reflexivity. }
  rewrite Ed in *. set (d := on_delay hq X c s th1) in *.
  assert (Hl : Forall (fun d => P (mkCommand d 0 (c_up c))) (on_pieces (on_fuel d) d)).
  { apply (proj1 Hs th1). lia. }
  pose proof (ok_null _ _ Hok) as Ho1.
  destruct (sim_pauses (c_up c) _ tv1 th1 HR1 Hl Ho1) as (w1 & th2 & R2 & D2 & E2).
  destruct (sim_null start _ th2 R2 Hst Hok) as (w2 & th3 & R3 & D3 & E3).
  exists (w1 ++ w2), th3. split; [exact R3|]. split; [rdy|]. intros ws2.
  match goal with |- context [set_w ?w th] => set (ws := w) end.
  change (t_q hq X (set_w ws th)) with (tqueue th). rewrite C1, C2.
  change (t_pins hq X (set_w ws th)) with (hq_p th). fold r. rewrite C5.
  change (t_setpins hq X (fst r) (set_w ws th)) with (set_w ws th1).
  change (on_delay hq X c s (set_w ws th1)) with d. unfold ws. rewrite <- app_assoc, E2. apply E3.
Qed.
Lemma ok_last c start s t : ok (snd (fst (add_last T Y c start s t))) -> ok t.
Proof. unfold add_last. cbn [fst snd]. apply ok_add. Qed.
Lemma ok_second c start s t : ok (snd (fst (add_second A T Y c start s t))) -> ok t.
Proof.
  unfold add_second. cbv zeta. 
  repeat (match goal with |- context [if ?b then _ else _] => destruct b end; cbn [fst snd]); intros H; auto;
    try (match type of H with context [add_last] => apply ok_last in H end); repeat (apply ok_add in H); exact H.
Qed.
Lemma ok_sadd ext busy c start s t : ok (snd (fst (s_add A T Y ext busy c start s t))) -> ok t.
Proof.
  unfold s_add. cbv zeta. destruct (negb _); cbn [fst snd]; intros H; [|apply ok_second in H]; now apply ok_first in H.
Qed.

Lemma sim_last c start s tv th : R tv th -> P c -> (start = true -> may_start) ->
  let r := add_last T Y c start s tv in
  ok (snd (fst r)) ->
  exists ws th', R (snd (fst r)) th' /\ Forall Wok ws /\
    forall ws2, add_last hq X c start s (set_w (ws ++ ws2) th) = (fst (fst r), set_w ws2 th', snd r).
Proof.
  intros HR Hc Hst. cbv zeta. unfold add_last. cbn [fst snd]. change (t_add hq X) with (h_add A EXT). intros Hok.
  destruct (sim_add c start tv th HR Hc Hst Hok) as (w & th1 & R1 & D1 & E1).
  exists w, th1. split; [exact R1|]. split; [rdy|]. intros ws2. rewrite E1. reflexivity.
Qed.
Lemma sim_second c start s tv th : R tv th -> pauses_ok s c -> P c -> (start = true -> may_start) ->
  let r := add_second A T Y c start s tv in
  ok (snd (fst r)) ->
  exists ws th', R (snd (fst r)) th' /\ Forall Wok ws /\
    forall ws2, add_second A hq X c start s (set_w (ws ++ ws2) th) = (fst (fst r), set_w ws2 th', snd r).
Proof.
  intros HR Hs Hc Hst. cbv zeta. destruct (R_fields _ _ HR) as ((E & Eq) & Hg & Ep).
  unfold add_second. cbv zeta. rewrite Eq.
  change (q_end (set_ent E (tqueue th))) with (q_end (tqueue th)).
  change (queueEntries (set_ent E (tqueue th))) with (queueEntries (tqueue th)).
  change (t_add hq X) with (h_add A EXT).
  destruct Hs as (_ & Hd & He).
  destruct (negb (Bool.eqb (qe_up (q_end (tqueue th))) (c_up c))) eqn:C1.
  2:{ intros Hok. destruct (sim_last c start s tv th HR Hc Hst Hok) as (w & th1 & R1 & D1 & E1).
      exists w, th1. split; [exact R1|]. split; [rdy|]. intros ws2. change (t_q hq X (set_w (w ++ ws2) th)) with (tqueue th). rewrite C1. apply E1. }
  destruct (is_external (s_dirpin s)) eqn:C2.
  - destruct (queueEntries (tqueue th) >? QUEUE_LEN A - 2) eqn:C3.
    { cbn [fst snd]. intros _. exists [], th. split; [exact HR|]. split; [rdy|]. intros ws2.
      change (t_q hq X (set_w ([] ++ ws2) th)) with (tqueue th). rewrite C1, C3. reflexivity. }
    destruct (negb (snd (t_add T Y (ext_pause A c) start tv) =? AQE_OK)) eqn:C4.
    { cbn [fst snd]. intros Hok.
      destruct (sim_add (ext_pause A c) start tv th HR (He eq_refl) Hst Hok) as (w & th1 & R1 & D1 & E1).
      exists w, th1. split; [exact R1|]. split; [rdy|]. intros ws2.
      change (t_q hq X (set_w (w ++ ws2) th)) with (tqueue th). rewrite C1, C3, E1. cbn [fst snd]. rewrite C4. reflexivity. }
    set (tv1 := fst (t_add T Y (ext_pause A c) start tv)).
    destruct (negb (snd (t_add T Y (ext_pause A c) start tv1) =? AQE_OK)) eqn:C5.
    { cbn [fst snd]. intros Hok.
      destruct (sim_add (ext_pause A c) start tv th HR (He eq_refl) Hst (ok_add _ _ _ Hok)) as (w & th1 & R1 & D1 & E1).
      destruct (sim_add (ext_pause A c) start tv1 th1 R1 (He eq_refl) Hst Hok) as (w2 & th2 & R2 & D2 & E2).
      exists (w ++ w2), th2. split; [exact R2|]. split; [rdy|]. intros ws2. rewrite <- app_assoc.
      match goal with |- context [set_w ?w th] => change (t_q hq X (set_w w th)) with (tqueue th) end.
      rewrite C1, C3, E1. cbn [fst snd]. rewrite C4, E2. cbn [fst snd]. rewrite C5. reflexivity. }
    intros Hok. pose proof (ok_last _ _ _ _ Hok) as Ho2.
    destruct (sim_add (ext_pause A c) start tv th HR (He eq_refl) Hst (ok_add _ _ _ Ho2)) as (w & th1 & R1 & D1 & E1).
    destruct (sim_add (ext_pause A c) start tv1 th1 R1 (He eq_refl) Hst Ho2) as (w2 & th2 & R2 & D2 & E2).
    destruct (sim_last c start s _ th2 R2 Hc Hst Hok) as (w3 & th3 & R3 & D3 & E3).
    exists (w ++ w2 ++ w3), th3. split; [exact R3|]. split; [rdy|]. intros ws2. rewrite <- !app_assoc.
    match goal with |- context [set_w ?w th] => change (t_q hq X (set_w w th)) with (tqueue th) end.
    rewrite C1, C3, E1. cbn [fst snd]. rewrite C4, E2. cbn [fst snd]. rewrite C5. apply E3.
  - destruct (negb (s_dirdelay s =? 0) && negb (c_steps c =? 0)) eqn:C3.
    2:{ intros Hok. destruct (sim_last c start s tv th HR Hc Hst Hok) as (w & th1 & R1 & D1 & E1).
        exists w, th1. split; [exact R1|]. split; [rdy|]. intros ws2. change (t_q hq X (set_w (w ++ ws2) th)) with (tqueue th). rewrite C1. apply E1. }
    assert (HD0 : s_dirdelay s <> 0) by (apply andb_true_iff in C3; lia).
    destruct (negb (snd (t_add T Y (dir_pause c s) start tv) =? AQE_OK)) eqn:C4.
    { cbn [fst snd]. intros Hok.
      destruct (sim_add (dir_pause c s) start tv th HR (Hd HD0) Hst Hok) as (w & th1 & R1 & D1 & E1).
      exists w, th1. split; [exact R1|]. split; [rdy|]. intros ws2.
      change (t_q hq X (set_w (w ++ ws2) th)) with (tqueue th). rewrite C1, E1. cbn [fst snd]. rewrite C4. reflexivity. }
    intros Hok. pose proof (ok_last _ _ _ _ Hok) as Ho2.
    destruct (sim_add (dir_pause c s) start tv th HR (Hd HD0) Hst Ho2) as (w & th1 & R1 & D1 & E1).
    destruct (sim_last c start s _ th1 R1 Hc Hst Hok) as (w3 & th3 & R3 & D3 & E3).
    exists (w ++ w3), th3. split; [exact R3|]. split; [rdy|]. intros ws2. rewrite <- !app_assoc.
    match goal with |- context [set_w ?w th] => change (t_q hq X (set_w w th)) with (tqueue th) end.
    rewrite C1, E1. cbn [fst snd]. rewrite C4. apply E3.
Qed.
Lemma sim_sadd ext busy c start s tv th : R tv th -> pauses_ok s c -> P c -> (start = true -> may_start) ->
  let r := s_add A T Y ext busy c start s tv in
  ok (snd (fst r)) ->
  exists ws th', R (snd (fst r)) th' /\ Forall Wok ws /\
    forall ws2, s_add A hq X ext busy c start s (set_w (ws ++ ws2) th) = (fst (fst r), set_w ws2 th', snd r).
Proof.
  intros HR Hs Hc Hst. cbv zeta. unfold s_add. cbv zeta.
  destruct (negb (snd (add_first T Y ext busy c start s tv) =? AQE_OK)) eqn:C1.
  - cbn [fst snd]. intros Hok. destruct (sim_first ext busy c start s tv th HR Hs Hst Hok) as (w & th1 & R1 & D1 & E1).
    exists w, th1. split; [exact R1|]. split; [rdy|]. intros ws2. rewrite E1. cbn [fst snd]. rewrite C1. reflexivity.
  - intros Hok. pose proof (ok_second _ _ _ _ Hok) as Ho1.
    destruct (sim_first ext busy c start s tv th HR Hs Hst Ho1) as (w & th1 & R1 & D1 & E1).
    destruct (sim_second c start s _ th1 R1 Hs Hc Hst Hok) as (w2 & th2 & R2 & D2 & E2).
    exists (w ++ w2), th2. split; [exact R2|]. split; [rdy|]. intros ws2. rewrite <- app_assoc, E1. cbn [fst snd]. rewrite C1. apply E2.
Qed.

End WithArch.

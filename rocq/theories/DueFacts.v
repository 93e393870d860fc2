(** * DueFacts: the pulses of the SAM driver *)
From Coq Require Import ZArith Bool List Lia.
From Verif Require Import Base Queue Due.
Import ListNotations.
Open Scope Z_scope.
Ltac Zify.zify_post_hook ::= idtac.
Ltac splits := repeat match goal with |- _ /\ _ => split end.

Definition is_pulse (x : slot) : bool := match x with Pulse _ _ => true | Gap _ => false end.
Definition pulses (l : list slot) : list slot := filter is_pulse l.
Lemma pulses_app l l' : pulses (l ++ l') = pulses l ++ pulses l'.
Proof. apply filter_app. Qed.
Lemma pulses_repeat d t n : pulses (repeat (Pulse d t) n) = repeat (Pulse d t) n.
Proof. induction n as [|n IH]; [reflexivity|]. unfold pulses in *. cbn. now rewrite IH. Qed.

Section Spec.
Variable HCU : bool.
Notation level_of := (level_of HCU).
(** What a command asks for: a pause is one period without pulse *)
Definition slots (c : command) : list slot :=
  if c_steps c =? 0 then [Gap (c_ticks c)] else repeat (Pulse (level_of c) (c_ticks c)) (Z.to_nat (c_steps c)).
Definition stream (l : list command) : list slot := concat (map slots l).
Lemma stream_app l l' : stream (l ++ l') = stream l ++ stream l'.
Proof. unfold stream. now rewrite map_app, concat_app. Qed.
Lemma stream_one c : stream [c] = slots c.
Proof. unfold stream. cbn. apply app_nil_r. Qed.
Definition cmd_fits (c : command) : Prop := 0 <= c_steps c <= 255 /\ 0 <= c_ticks c <= 65535.

(** ** Conditions on a run *)
Definition ev_fits (e : devent) (s : dst) : Prop :=
  match e with DBegin c _ => cmd_fits c | DWait n => 0 <= n | _ => True end.
Definition no_stop (e : devent) (s : dst) : Prop := e <> DStop.
(** The interrupt of the port is served before the period ends. *)
Definition pio_in_time (e : devent) (s : dst) : Prop := e = DPeriod -> h_edge (d_h s) = false.
(** A turn of a running queue, or of a queue not empty: from steps to steps, and the queue has not run
    out since the direction has been compared. *)
Definition ends_with_steps (q : list de) : Prop := exists q' e, q = q' ++ [e] /\ has_steps (e_c e) = true.
Definition turn_ok (e : devent) (s : dst) : Prop :=
  e = DCommit -> match d_pc s with
                 | Some (x, _) => e_tog x = true -> has_steps (e_c x) = true /\ ends_with_steps (d_q s)
                 | None => True
                 end.
Definition good (e : devent) (s : dst) : Prop := ev_fits e s /\ no_stop e s /\ pio_in_time e s /\ turn_ok e s.

(** ** Invariant *)
Definition rest1 (e : de) : list slot := repeat (Pulse (level_of (e_c e)) (c_ticks (e_c e))) (Z.to_nat (e_left e)).
Definition rest (q : list de) : list slot := concat (map rest1 q).
(** not yet begun *)
Definition fresh (e : de) : Prop := cmd_fits (e_c e) /\ e_left e = c_steps (e_c e).
(** [d], [st]: level and kind (steps or pause) of the command before *)
Fixpoint chain (d st : bool) (q : list de) : Prop :=
  match q with
  | [] => True
  | e :: t => fresh e /\ level_of (e_c e) = xorb d (e_tog e)
              /\ (e_tog e = true -> st = true /\ has_steps (e_c e) = true)
              /\ chain (level_of (e_c e)) (has_steps (e_c e)) t
  end.
Fixpoint last_level (d : bool) (q : list de) : bool :=
  match q with [] => d | e :: t => last_level (level_of (e_c e)) t end.
Definition period_next (h : hw) : Z := match h_upd h with Some t => t | None => h_per h end.

Definition inv_idle (s : dst) : Prop :=
  d_pause s = false /\ h_edge (d_h s) = false
  /\ (h_on (d_h s) = true -> h_dis (d_h s) = true) /\ (h_on (d_h s) = false -> h_upd (d_h s) = None)
  /\ match d_q s with
     | [] => True
     | e :: r => fresh e /\ e_tog e = false /\ level_of (e_c e) = h_dir (d_h s)
                 /\ chain (h_dir (d_h s)) (has_steps (e_c e)) r
     end.
Definition inv_steps (s : dst) : Prop :=
  d_pause s = false /\ h_on (d_h s) = true /\ h_dis (d_h s) = false /\ h_pwm (d_h s) = true
  /\ exists e r, d_q s = e :: r /\ cmd_fits (e_c e) /\ 0 < e_left e <= c_steps (e_c e) /\ e_tog e = false
     /\ level_of (e_c e) = h_dir (d_h s) /\ period_next (d_h s) = c_ticks (e_c e)
     /\ chain (h_dir (d_h s)) true r.
Definition inv_pause (s : dst) : Prop :=
  d_pause s = true /\ h_on (d_h s) = true /\ h_dis (d_h s) = false /\ h_pwm (d_h s) = false
  /\ h_edge (d_h s) = false
  /\ exists e r, d_q s = e :: r /\ cmd_fits (e_c e) /\ c_steps (e_c e) = 0 /\ e_left e = 0
     /\ level_of (e_c e) = h_dir (d_h s) /\ chain (h_dir (d_h s)) false r.
Definition pc_ok (s : dst) : Prop :=
  match d_pc s with
  | None => True
  | Some (e, _) => fresh e /\ level_of (e_c e) = xorb (d_end s) (e_tog e)
  end.
Definition left_over (s : dst) : list slot := if h_edge (d_h s) then tl (rest (d_q s)) else rest (d_q s).
Record inv (l0 : list slot) (a0 : list command) (s : dst) : Prop := {
  inv_mode : if d_run s then inv_steps s \/ inv_pause s else inv_idle s;
  inv_end : d_pc s = None /\ d_q s = [] \/ d_end s = last_level (h_dir (d_h s)) (d_q s);
  inv_pc : pc_ok s;
  inv_log : exists l, d_acc s = a0 ++ l /\ pulses (h_log (d_h s)) ++ left_over s = l0 ++ pulses (stream l)
}.

Lemma last_level_app d q e : last_level d (q ++ [e]) = level_of (e_c e).
Proof. revert d. induction q as [|x q IH]; intros d; cbn; auto. Qed.
Lemma rest_app q q' : rest (q ++ q') = rest q ++ rest q'.
Proof. unfold rest. now rewrite map_app, concat_app. Qed.
Lemma rest_cons e q : rest (e :: q) = rest1 e ++ rest q.
Proof. reflexivity. Qed.
Lemma rest_fresh e : fresh e -> rest1 e = pulses (slots (e_c e)).
Proof.
  intros [F L]. unfold rest1, slots. rewrite L. destruct (Z.eqb_spec (c_steps (e_c e)) 0) as [Z0|Z0].
  - rewrite Z0. reflexivity.
  - now rewrite pulses_repeat.
Qed.
Lemma rest1_pos e : 0 < e_left e ->
  rest1 e = Pulse (level_of (e_c e)) (c_ticks (e_c e)) :: rest1 (mkDe (e_c e) (e_left e - 1) (e_tog e)).
Proof.
  intros P. unfold rest1. cbn [e_c e_left]. replace (Z.to_nat (e_left e)) with (S (Z.to_nat (e_left e - 1))) by lia.
  reflexivity.
Qed.
Lemma rest1_zero e : e_left e = 0 -> rest1 e = [].
Proof. intros P. unfold rest1. now rewrite P. Qed.
Lemma chain_app q e : forall d st, chain d st q -> fresh e ->
  level_of (e_c e) = xorb (last_level d q) (e_tog e) ->
  (e_tog e = true -> has_steps (e_c e) = true /\ (q = [] -> st = true) /\ (q <> [] -> ends_with_steps q)) ->
  chain d st (q ++ [e]).
Proof.
  induction q as [|x q IH]; intros d st C F L T; cbn [app chain last_level] in *.
  - splits; auto. intros H. destruct (T H) as (A & B & _). auto.
  - destruct C as (C1 & C2 & C3 & C4). splits; auto. apply IH; auto.
    intros H. destruct (T H) as (A & B & D). split; [auto|].
    assert (N : x :: q <> []) by discriminate. specialize (D N). destruct D as (q' & y & E & Sy).
    destruct q' as [|z q'].
    + injection E as -> ->. split; [auto|]. intros K. now contradiction K.
    + cbn in E. injection E as <- ->. split; [intros K; destruct q'; discriminate|]. intros _. now exists q', y.
Qed.
Lemma has_steps_pos c : cmd_fits c -> has_steps c = true <-> 0 < c_steps c.
Proof. intros _. unfold has_steps. destruct (Z.gtb_spec (c_steps c) 0); split; intros; auto; try discriminate; lia. Qed.
Lemma u8_dec n : 0 < n <= 255 -> u8 (n - 1) = n - 1.
Proof. intros. apply u8_id. lia. Qed.

Lemma inv_init d t : inv [] [] (dinit d t).
Proof.
  constructor; cbn.
  - unfold inv_idle. cbn. splits; auto.
  - auto.
  - exact I.
  - exists []. auto.
Qed.

(** ** Each event keeps the invariant *)
Lemma wait_inv l0 a0 n s : inv l0 a0 s -> inv l0 a0 (with_h (wait n (d_h s)) s).
Proof. intros [M E P L]. constructor; cbn in *; auto. Qed.

Lemma period_inv l0 a0 s : inv l0 a0 s -> h_edge (d_h s) = false ->
  inv l0 a0 (if h_on (d_h s) then with_h (end_period (d_h s)) s else s).
Proof.
  intros [M E P L] W. destruct (h_on (d_h s)) eqn:On; [|constructor; auto].
  destruct (d_run s) eqn:R.
  - destruct M as [M|M].
    + destruct M as (M1 & M2 & M3 & M4 & e & r & Q & F & Lf & T & Lv & Pn & C).
      constructor; cbn [d_run d_h d_q d_end d_pc d_acc with_h].
      * rewrite R. left. unfold inv_steps. cbn [d_run d_h d_q d_end d_pc d_acc d_pause with_h].
        unfold end_period. rewrite M3. cbn [negb begin_period h_on h_dis h_pwm h_dir]. splits; auto.
        exists e, r. splits; auto; try lia.
      * unfold end_period. rewrite M3. cbn. exact E.
      * unfold pc_ok in *. cbn. exact P.
      * destruct L as (l & La & Lb). exists l. split; [exact La|]. rewrite <- Lb.
        unfold left_over. cbn [d_h d_q with_h]. rewrite W, Q. unfold end_period. rewrite M3.
        cbn [negb begin_period h_log h_edge h_pwm h_dir h_per]. rewrite W, M4. cbn [orb].
        rewrite pulses_app. cbn [pulses filter is_pulse]. rewrite rest_cons, rest1_pos by lia. cbn [app tl].
        rewrite <- app_assoc. cbn [app]. unfold period_next in Pn. rewrite Pn, Lv. reflexivity.
    + destruct M as (M1 & M2 & M3 & M4 & M5 & e & r & Q & F & S0 & Lf & Lv & C).
      constructor; cbn [d_run d_h d_q d_end d_pc d_acc with_h].
      * rewrite R. right. unfold inv_pause. cbn [d_run d_h d_q d_end d_pc d_acc d_pause with_h].
        unfold end_period. rewrite M3. cbn [negb begin_period h_on h_dis h_pwm h_dir h_edge]. rewrite M4, M5.
        splits; auto. exists e, r. splits; auto; try (unfold cmd_fits in F; tauto).
      * unfold end_period. rewrite M3. cbn. exact E.
      * unfold pc_ok in *. cbn. exact P.
      * destruct L as (l & La & Lb). exists l. split; [exact La|]. rewrite <- Lb.
        unfold left_over. cbn [d_h d_q with_h]. rewrite W, Q. unfold end_period. rewrite M3.
        cbn [negb begin_period h_log h_edge h_pwm h_dir h_per]. rewrite W, M4. cbn [orb].
        rewrite pulses_app. cbn [pulses filter is_pulse]. now rewrite app_nil_r.
  - destruct M as (M1 & M2 & M3 & M4 & M5). specialize (M3 On).
    constructor; cbn [d_run d_h d_q d_end d_pc d_acc with_h].
    + rewrite R. unfold inv_idle. cbn [d_run d_h d_q d_end d_pc d_acc d_pause with_h].
      unfold end_period. rewrite M3. cbn [negb h_on h_dis h_edge h_upd h_dir]. splits; auto.
    + unfold end_period. rewrite M3. cbn. exact E.
    + unfold pc_ok in *. cbn. exact P.
    + destruct L as (l & La & Lb). exists l. split; [exact La|]. rewrite <- Lb.
      unfold left_over. cbn [d_h d_q with_h]. unfold end_period. rewrite M3. cbn [h_log h_edge]. reflexivity.
Qed.

Lemma rest_tl_pos e r : 0 < e_left e -> tl (rest (e :: r)) = rest (mkDe (e_c e) (e_left e - 1) (e_tog e) :: r).
Proof. intros P. rewrite !rest_cons, (rest1_pos e) by auto. reflexivity. Qed.
Lemma rest_skip e r : e_left e = 0 -> rest (e :: r) = rest r.
Proof. intros P. now rewrite rest_cons, rest1_zero. Qed.

Lemma toggle_false h : toggle false h = h.
Proof. unfold toggle, w_dir. rewrite xorb_false_r. now destruct h. Qed.

Lemma pio_inv l0 a0 s : inv l0 a0 s -> inv l0 a0 (pio_isr s).
Proof.
  intros [M E P L]. unfold pio_isr. destruct (h_edge (d_h s)) eqn:Ed; [|constructor; auto].
  destruct (d_run s) eqn:R.
  2: { destruct M as (_ & M & _). congruence. }
  destruct M as [M|M]; [|destruct M as (_ & _ & _ & _ & M & _); congruence].
  destruct M as (M1 & M2 & M3 & M4 & e & r & Q & F & Lf & T & Lv & Pn & C).
  rewrite M1, Q. cbn [negb orb]. destruct F as [F1 F2]. unfold pio_count. rewrite u8_dec by lia.
  destruct L as (l & La & Lb). unfold left_over in Lb. rewrite Ed, Q, rest_tl_pos in Lb by lia.
  rewrite Q in E. destruct E as [[_ E]|E]; [discriminate|]. cbn [last_level] in E.
  destruct (Z.eqb_spec (e_left e - 1) 0) as [Z0|Z0].
  2: { constructor; cbn -[xorb].
       - rewrite R. left. unfold inv_steps. cbn [d_pause d_h d_q h_on h_dis h_pwm h_dir clr_edge].
         splits; auto. eexists _, r. splits; [reflexivity|..]; cbn [e_c e_left e_tog]; auto; try lia.
         split; auto.
       - right. exact E.
       - unfold pc_ok in *. cbn. exact P.
       - exists l. split; [exact La|]. rewrite <- Lb. reflexivity. }
  rewrite rest_skip in Lb by (cbn [e_left]; lia).
  rewrite T, toggle_false. unfold pio_next. destruct r as [|e2 r2].
  - constructor; cbn -[xorb].
    + unfold inv_idle. cbn. splits; auto; try congruence.
    + right. rewrite E. cbn [last_level]. exact Lv.
    + unfold pc_ok in *. cbn. exact P.
    + exists l. split; [exact La|]. rewrite <- Lb. reflexivity.
  - cbn [chain] in C. destruct C as ([C1 C2] & C3 & C4 & C5). cbn [last_level] in E.
    destruct (Z.eqb_spec (e_left e2) 0) as [N0|N0]; cbn [orb].
    + assert (S0 : c_steps (e_c e2) = 0) by congruence.
      assert (Hs : has_steps (e_c e2) = false) by (unfold has_steps; now rewrite S0).
      assert (Tg : e_tog e2 = false). { destruct (e_tog e2); [|reflexivity]. destruct C4 as [_ C4]; [reflexivity|congruence]. }
      rewrite Tg in C3. rewrite xorb_false_r in C3.
      constructor; cbn -[xorb].
      * rewrite R. right. unfold inv_pause. cbn [d_pause d_h d_q h_on h_dis h_pwm h_dir h_edge clr_edge w_upd w_pwm w_ie toggle w_dir].
        splits; auto. exists e2, r2. rewrite Hs in C5. splits; auto; try apply C1. rewrite C3 in C5. exact C5.
      * right. rewrite E. reflexivity.
      * unfold pc_ok in *. cbn. exact P.
      * exists l. split; [exact La|]. rewrite <- Lb. reflexivity.
    + assert (S0 : 0 < c_steps (e_c e2)) by (destruct C1; lia).
      assert (Hs : has_steps (e_c e2) = true) by (now apply has_steps_pos).
      rewrite Hs. cbn [negb].
      constructor; cbn -[xorb].
      * rewrite R. left. unfold inv_steps.
        cbn [d_pause d_h d_q h_on h_dis h_pwm h_dir h_edge clr_edge w_upd w_pwm w_ie toggle w_dir].
        splits; auto. eexists _, r2. splits; [reflexivity|..]; cbn [e_c e_left e_tog]; auto; try lia.
        rewrite Hs, C3 in C5. exact C5.
      * right. rewrite E. cbn. reflexivity.
      * unfold pc_ok in *. cbn. exact P.
      * exists l. split; [exact La|]. rewrite <- Lb. reflexivity.
Qed.

Lemma pwm_inv l0 a0 s : inv l0 a0 s -> inv l0 a0 (pwm_isr s).
Proof.
  intros [M E P L]. unfold pwm_isr. destruct (h_ev (d_h s)) eqn:Ev; [|constructor; auto].
  destruct (elapsed (micros (clr_ev (d_h s))) (d_en s) <? 100); [constructor; auto|].
  destruct (d_pause s) eqn:Ps.
  2: { destruct (d_run s) eqn:R.
       - constructor; cbn; auto. rewrite R. destruct M as [M|M]; [left; exact M|right; exact M].
       - constructor; cbn; auto. rewrite R. exact M. }
  destruct (d_run s) eqn:R.
  2: { destruct M as [M _]. congruence. }
  destruct M as [M|M]; [destruct M as [M _]; congruence|].
  destruct M as (M1 & M2 & M3 & M4 & M5 & e & r & Q & F & S0 & Lf & Lv & C).
  rewrite Q. unfold pwm_next. destruct L as (l & La & Lb). unfold left_over in Lb.
  rewrite M5, Q, rest_skip in Lb by auto. rewrite Q in E.
  destruct E as [[_ E]|E]; [discriminate|]. cbn [last_level] in E.
  destruct r as [|e2 r2].
  - constructor; cbn.
    + unfold inv_idle. cbn. splits; auto; try congruence.
    + right. rewrite E. cbn [last_level]. exact Lv.
    + unfold pc_ok in *. cbn. exact P.
    + exists l. split; [exact La|]. rewrite <- Lb. unfold left_over. cbn. now rewrite M5.
  - cbn [chain] in C. destruct C as ([C1 C2] & C3 & C4 & C5). cbn [last_level] in E.
    assert (Tg : e_tog e2 = false). { destruct (e_tog e2); [|reflexivity]. destruct C4 as [C4 _]; [reflexivity|congruence]. }
    rewrite Tg, xorb_false_r in C3. rewrite C3 in C5.
    destruct (Z.gtb_spec (e_left e2) 0) as [N0|N0].
    + assert (Hs : has_steps (e_c e2) = true) by (apply has_steps_pos; auto; lia).
      constructor; cbn.
      * rewrite R. left. unfold inv_steps. cbn [d_pause d_h d_q h_on h_dis h_pwm h_dir h_edge clr_ev w_upd w_pwm w_ie].
        splits; auto. exists e2, r2. rewrite Hs in C5. splits; auto; lia.
      * right. rewrite E. reflexivity.
      * unfold pc_ok in *. cbn. exact P.
      * exists l. split; [exact La|]. rewrite <- Lb. unfold left_over. cbn. now rewrite M5.
    + assert (Z0 : c_steps (e_c e2) = 0) by (destruct C1; lia).
      assert (Hs : has_steps (e_c e2) = false) by (unfold has_steps; now rewrite Z0).
      constructor; cbn.
      * rewrite R. right. unfold inv_pause. cbn [d_pause d_h d_q h_on h_dis h_pwm h_dir h_edge clr_ev w_upd w_pwm w_ie].
        splits; auto. exists e2, r2. rewrite Hs in C5. splits; auto; lia.
      * right. rewrite E. reflexivity.
      * unfold pc_ok in *. cbn. exact P.
      * exists l. split; [exact La|]. rewrite <- Lb. unfold left_over. cbn. now rewrite M5.
Qed.

Definition preset (t : Z) (h : hw) : hw := if h_on h then w_upd t h else w_per t h.
Lemma start_steps_eq t h : start_steps (preset t h) =
  if h_on h then mkHw true false (h_per h) (Some t) (h_ev h) false true (h_edge h) (h_dir h) (h_clk h) (h_off h) (h_log h)
  else mkHw true false t (h_upd h) (h_ev h) false true true (h_dir h) (now h) 0 (h_log h ++ [Pulse (h_dir h) t]).
Proof.
  destruct h as [[|] ? ? ? ? ? ? [|] ? ? ? ?]; reflexivity.
Qed.
Lemma start_pause_eq t h : start_pause (preset t h) =
  if h_on h then mkHw true false (h_per h) (Some t) (h_ev h) true false (h_edge h) (h_dir h) (h_clk h) (h_off h) (h_log h)
  else mkHw true false t (h_upd h) (h_ev h) true false (h_edge h) (h_dir h) (now h) 0 (h_log h ++ [Gap t]).
Proof.
  destruct h as [[|] ? ? ? ? ? ? [|] ? ? ? ?]; reflexivity.
Qed.

Lemma start_inv l0 a0 s : inv l0 a0 s -> d_run s = false -> inv l0 a0 (start s).
Proof.
  intros [M E P L] R. unfold start. destruct (d_q s) as [|e r] eqn:Q; [constructor; auto; now rewrite Q|].
  rewrite R in M. destruct M as (M1 & M2 & M3 & M4 & M5). rewrite Q in M5.
  destruct M5 as ([F Lf] & T & Lv & C). destruct L as (l & La & Lb). unfold left_over in Lb. rewrite M2, Q in Lb.
  fold (preset (c_ticks (e_c e)) (d_h s)). rewrite start_steps_eq, start_pause_eq.
  destruct (has_steps (e_c e)) eqn:Hs.
  - rewrite orb_true_r. assert (S0 : 0 < c_steps (e_c e)) by (now apply has_steps_pos).
    constructor.
    + cbn. left. unfold inv_steps. destruct (h_on (d_h s)) eqn:On; cbn.
      * splits; auto. exists e, r. splits; auto; lia.
      * splits; auto. exists e, r. splits; auto; try lia. unfold period_next. cbn. now rewrite M4.
    + destruct (h_on (d_h s)) eqn:On; cbn; exact E.
    + unfold pc_ok in *. cbn. exact P.
    + exists l. split; [exact La|]. rewrite <- Lb. unfold left_over.
      destruct (h_on (d_h s)) eqn:On; cbn [with_hq d_h d_q h_edge h_log].
      * now rewrite M2.
      * rewrite pulses_app. cbn [pulses filter is_pulse]. rewrite rest_cons, rest1_pos by lia.
        rewrite <- app_assoc. cbn. now rewrite Lv.
  - assert (S0 : c_steps (e_c e) = 0).
    { unfold has_steps in Hs. destruct (Z.gtb_spec (c_steps (e_c e)) 0); [discriminate|]. destruct F; lia. }
    rewrite Lf, S0. cbn [Z.gtb Z.compare orb].
    constructor.
    + cbn. right. unfold inv_pause. destruct (h_on (d_h s)) eqn:On; cbn.
      * splits; auto. exists e, r. splits; auto; lia.
      * splits; auto. exists e, r. splits; auto; lia.
    + destruct (h_on (d_h s)) eqn:On; cbn; exact E.
    + unfold pc_ok in *. cbn. exact P.
    + exists l. split; [exact La|]. rewrite <- Lb. unfold left_over.
      destruct (h_on (d_h s)) eqn:On; cbn [with_hq d_h d_q h_edge h_log].
      * now rewrite M2.
      * rewrite M2, pulses_app. cbn. now rewrite app_nil_r.
Qed.

Lemma begin_inv l0 a0 c st s : inv l0 a0 s -> d_pc s = None -> cmd_fits c -> inv l0 a0 (add_begin HCU c st s).
Proof.
  intros I N F. pose proof I as [M E P L]. unfold add_begin.
  assert (X : level_of c = xorb (d_end s) (negb (Bool.eqb (level_of c) (d_end s))))
    by (destruct (level_of c), (d_end s); reflexivity).
  destruct (idle s) eqn:Id.
  - unfold idle in Id. destruct (d_run s) eqn:R; [discriminate|]. destruct (d_q s) as [|x q] eqn:Q; [|discriminate].
    destruct M as (M1 & M2 & M3 & M4 & M5). constructor; cbn.
    + unfold inv_idle. cbn. splits; auto.
    + now right.
    + unfold pc_ok. cbn. split; [split; auto|]. now rewrite xorb_false_r.
    + destruct L as (l & La & Lb). exists l. split; [exact La|]. rewrite <- Lb. unfold left_over. cbn. now rewrite Q.
  - constructor; [exact M| | |exact L].
    { cbn. right. destruct E as [[_ E]|E]; [|exact E]. unfold idle in Id. rewrite E, andb_true_r in Id.
      apply negb_false_iff in Id. rewrite Id in M.
      destruct M as [M|M]; [destruct M as (_ & _ & _ & _ & a & b & X0 & _)|destruct M as (_ & _ & _ & _ & _ & a & b & X0 & _)]; congruence. }
    unfold pc_ok. cbn. split; [split; auto|exact X].
Qed.

Definition put (e : de) (s : dst) : dst :=
  mkD (d_h s) (d_q s ++ [e]) (d_run s) (d_pause s) (d_en s) (level_of (e_c e)) None (d_acc s ++ [e_c e]).
Lemma put_inv l0 a0 e st s : inv l0 a0 s -> d_pc s = Some (e, st) -> turn_ok DCommit s -> inv l0 a0 (put e s).
Proof.
  intros [M E P L] N T. unfold turn_ok in T. specialize (T eq_refl). rewrite N in T.
  unfold pc_ok in P. rewrite N in P. destruct P as [F Lv]. destruct E as [[E _]|E]; [congruence|].
  assert (LO : left_over (put e s) = left_over s ++ pulses (slots (e_c e))).
  { unfold left_over, put. cbn [d_h d_q]. rewrite rest_app. cbn [rest concat map]. unfold rest at 2 4. cbn [map concat].
    rewrite app_nil_r, rest_fresh by auto. destruct (h_edge (d_h s)) eqn:Ed; [|reflexivity].
    destruct (d_run s) eqn:R; [|destruct M as (_ & M & _); congruence].
    destruct M as [M|M]; [|destruct M as (_ & _ & _ & _ & M & _); congruence].
    destruct M as (_ & _ & _ & _ & x & r & Q & _ & Lf & _). rewrite Q, rest_cons, rest1_pos by lia. reflexivity. }
  constructor.
  - cbn. destruct (d_run s) eqn:R.
    + destruct M as [M|M].
      * left. destruct M as (M1 & M2 & M3 & M4 & x & r & Q & Fx & Lf & Tx & Lx & Pn & C).
        unfold inv_steps, put. cbn. splits; auto. exists x, (r ++ [e]). rewrite Q. splits; auto; try lia.
        apply chain_app; auto.
        { rewrite Q in E. cbn in E. rewrite Lx in E. now rewrite <- E. }
        intros H. destruct (T H) as (A & q' & y & Eq & Sy). splits; auto.
        rewrite Q in Eq. destruct q' as [|z q']; cbn in Eq; [injection Eq as -> ->; intros K; now contradiction K|].
        injection Eq as <- ->. intros _. now exists q', y.
      * right. destruct M as (M1 & M2 & M3 & M4 & M5 & x & r & Q & Fx & S0 & Lf & Lx & C).
        unfold inv_pause, put. cbn. splits; auto. exists x, (r ++ [e]). rewrite Q. splits; auto; try lia.
        apply chain_app; auto.
        { rewrite Q in E. cbn in E. rewrite Lx in E. now rewrite <- E. }
        intros H. destruct (T H) as (A & q' & y & Eq & Sy). split; [auto|].
        rewrite Q in Eq. destruct q' as [|z q']; cbn in Eq.
        { injection Eq as -> ->. unfold has_steps in Sy. rewrite S0 in Sy. discriminate. }
        injection Eq as <- ->. split; [intros K; destruct q'; discriminate|]. intros _. now exists q', y.
    + destruct M as (M1 & M2 & M3 & M4 & M5). unfold inv_idle, put. cbn. splits; auto.
      destruct (d_q s) as [|x r] eqn:Q; cbn [app].
      * cbn in E. rewrite E in Lv. destruct (e_tog e) eqn:Tg.
        { destruct T as (_ & q' & y & Eq & _); [reflexivity|]. destruct q'; discriminate. }
        rewrite xorb_false_r in Lv. splits; auto.
      * destruct M5 as (F1 & F2 & F3 & F4). splits; auto. cbn in E. rewrite F3 in E.
        apply chain_app; auto. { now rewrite <- E. }
        intros H. destruct (T H) as (A & q' & y & Eq & Sy). split; [auto|].
        destruct q' as [|z q']; cbn in Eq.
        { injection Eq as -> ->. split; [auto|]. intros K; now contradiction K. }
        injection Eq as <- ->. split; [intros K; destruct q'; discriminate|]. intros _. now exists q', y.
  - right. unfold put. cbn. now rewrite last_level_app.
  - exact I.
  - destruct L as (l & La & Lb). exists (l ++ [e_c e]). rewrite LO. unfold put. cbn [d_acc d_h].
    split; [now rewrite La, app_assoc|]. rewrite app_assoc, Lb, stream_app, stream_one, pulses_app, app_assoc. reflexivity.
Qed.
Lemma commit_inv l0 a0 s : inv l0 a0 s -> turn_ok DCommit s -> inv l0 a0 (add_commit HCU s).
Proof.
  intros I T. unfold add_commit. destruct (d_pc s) as [[e st]|] eqn:N; [|auto].
  assert (I1 : inv l0 a0 (put e s)) by (eapply put_inv; eauto). fold (put e s).
  destruct (d_run s) eqn:R; [exact I1|]. destruct st; [|exact I1]. cbn [negb andb]. apply start_inv; auto.
Qed.

Lemma dstep_inv l0 a0 e s : inv l0 a0 s -> good e s -> inv l0 a0 (dstep HCU e s).
Proof.
  intros I (F & N & P & T). destruct e; cbn [dstep].
  - destruct (d_pc s) eqn:E; auto. apply begin_inv; auto.
  - apply commit_inv; auto.
  - destruct (d_pc s); auto. unfold add_null. destruct (d_run s) eqn:R; auto. apply start_inv; auto.
  - apply wait_inv; auto.
  - apply period_inv; auto.
  - apply pio_inv; auto.
  - apply pwm_inv; auto.
  - contradiction N; reflexivity.
  - destruct I as [M E Pc Lg]. constructor; auto.
Qed.
Lemma drun_inv l0 a0 evs : forall s, inv l0 a0 s -> along HCU good evs s -> inv l0 a0 (drun HCU evs s).
Proof. induction evs as [|e t IH]; intros s I G; [auto|]. destruct G as [G1 G2]. apply IH; auto. apply dstep_inv; auto. Qed.

(** ** Forced stop *)
(** not in a pause, and no interrupt of the port is waiting *)
Definition calm_stop (e : devent) (s : dst) : Prop :=
  e = DStop /\ d_pause s = false /\ h_edge (d_h s) = false /\ d_pc s = None.
Lemma stop_inv l0 a0 s : inv l0 a0 s -> calm_stop DStop s ->
  inv (pulses (h_log (d_h s))) (d_acc s) (dstep HCU DStop s).
Proof.
  intros [M E P L] (_ & C1 & C2 & C3). cbn [dstep]. rewrite C3. constructor; cbn.
  - unfold inv_idle. cbn. splits; auto. intros Off. destruct (d_run s); [|destruct M as (_ & _ & _ & M & _); auto].
    destruct M as [M|M]; destruct M as (_ & M & _); congruence.
  - auto.
  - unfold pc_ok. cbn. now rewrite C3.
  - exists []. rewrite !app_nil_r. unfold left_over. cbn. rewrite C2. cbn. now rewrite !app_nil_r.
Qed.
Lemma drun_stops evs : forall s, (exists l0 a0, inv l0 a0 s) ->
  along HCU (fun e s => good e s \/ calm_stop e s) evs s -> exists l0 a0, inv l0 a0 (drun HCU evs s).
Proof.
  induction evs as [|e t IH]; intros s (l0 & a0 & I) G; [eauto|]. destruct G as [[G|G] G2]; apply IH; auto.
  - exists l0, a0. apply dstep_inv; auto.
  - pose proof G as (-> & _). eexists _, _. eapply stop_inv; eauto.
Qed.
End Spec.

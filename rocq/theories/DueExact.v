(** * DueExact: pulses and pauses of the SAM driver, prompt interrupts *)
From Coq Require Import ZArith Bool List Lia.
From Verif Require Import Base Queue Due DueFacts.
Import ListNotations.
Open Scope Z_scope.
Ltac Zify.zify_post_hook ::= idtac.
Ltac splits := repeat match goal with |- _ /\ _ => split end.

(** ** The test of the time *)
Lemma elapsed_diff n t : t <= n -> n - t < 4294967296 * 21 - 42 ->
  let d := n / 21 - t / 21 in
  elapsed (u32 (n / 21)) (u32 (t / 21)) = d \/ (1 <= d /\ elapsed (u32 (n / 21)) (u32 (t / 21)) = d - 1).
Proof.
  intros H1 H2 d. unfold elapsed.
  assert (D : 0 <= d < 4294967296).
  { unfold d. pose proof (Z.div_mod n 21 ltac:(lia)). pose proof (Z.mod_pos_bound n 21 ltac:(lia)).
    pose proof (Z.div_mod t 21 ltac:(lia)). pose proof (Z.mod_pos_bound t 21 ltac:(lia)). lia. }
  assert (E : n / 21 = t / 21 + d) by (unfold d; lia). rewrite E. clear E. generalize (t / 21) D. clear. intros x D.
  unfold u32. pose proof (Z.div_mod (x + d) 4294967296 ltac:(lia)) as A1.
  pose proof (Z.mod_pos_bound (x + d) 4294967296 ltac:(lia)) as A2.
  pose proof (Z.div_mod x 4294967296 ltac:(lia)) as B1. pose proof (Z.mod_pos_bound x 4294967296 ltac:(lia)) as B2.
  destruct (Z.ltb_spec ((x + d) mod 4294967296) (x mod 4294967296)) as [C|C].
  - right. assert (Q : (x + d) / 4294967296 = x / 4294967296 + 1) by nia. split; [nia|].
    rewrite Z.mod_small; nia.
  - left. assert (Q : (x + d) / 4294967296 = x / 4294967296) by nia. rewrite Z.mod_small; nia.
Qed.
Lemma elapsed_long n t : 2142 <= n - t -> n - t <= 70000000000 -> elapsed (u32 (n / 21)) (u32 (t / 21)) <? 100 = false.
Proof.
  intros H1 H2. apply Z.ltb_ge.
  assert (D : 101 <= n / 21 - t / 21).
  { pose proof (Z.div_mod n 21 ltac:(lia)). pose proof (Z.mod_pos_bound n 21 ltac:(lia)).
    pose proof (Z.div_mod t 21 ltac:(lia)). pose proof (Z.mod_pos_bound t 21 ltac:(lia)). lia. }
  destruct (elapsed_diff n t) as [E|[_ E]]; lia.
Qed.
Lemma elapsed_short n t : 0 <= n - t <= 2000 -> elapsed (u32 (n / 21)) (u32 (t / 21)) <? 100 = true.
Proof.
  intros H1. apply Z.ltb_lt.
  assert (D : n / 21 - t / 21 < 100).
  { pose proof (Z.div_mod n 21 ltac:(lia)). pose proof (Z.mod_pos_bound n 21 ltac:(lia)).
    pose proof (Z.div_mod t 21 ltac:(lia)). pose proof (Z.mod_pos_bound t 21 ltac:(lia)). lia. }
  destruct (elapsed_diff n t) as [E|[_ E]]; lia.
Qed.

Definition gaps (l : list slot) : Z := Z.of_nat (length (filter (fun x => negb (is_pulse x)) l)).
Lemma gaps_app l l' : gaps (l ++ l') = gaps l + gaps l'.
Proof. unfold gaps. rewrite filter_app, app_length. lia. Qed.
Lemma gaps_nonneg l : 0 <= gaps l.
Proof. unfold gaps. lia. Qed.

Section Spec.
Variable HCU : bool.
Variable L : Z.
Hypothesis L_ok : 0 <= L <= 2000.
Notation level_of := (level_of HCU).
Notation slots := (slots HCU).
Notation stream := (stream HCU).
Lemma gaps_slots c : gaps (slots c) <= 1.
Proof.
  unfold slots. destruct (c_steps c =? 0); [cbn; lia|]. unfold gaps.
  replace (filter _ _) with (@nil slot); [cbn; lia|]. generalize (Z.to_nat (c_steps c)). induction n; cbn; auto.
Qed.
Lemma gaps_stream l : gaps (stream l) <= Z.of_nat (length l).
Proof.
  induction l as [|c l IH]; [cbn; lia|]. change (c :: l) with ([c] ++ l). rewrite stream_app, gaps_app, stream_one, app_length.
  pose proof (gaps_slots c). cbn [length]. lia.
Qed.

(** ** Conditions on a run *)
(** A handler comes within [L] ticks, and before the period ends. In a pause no other stepper is
    connected. *)
Definition prompt (e : devent) (s : dst) : Prop :=
  match e with
  | DPio => h_edge (d_h s) = true -> h_off (d_h s) <= L
  | DPwm => h_ev (d_h s) = true -> h_ie (d_h s) = true -> h_off (d_h s) <= L
  | DPeriod => h_edge (d_h s) = false /\ h_ev (d_h s) && h_ie (d_h s) = false
  | DConnect => d_pause s = false
  | _ => True
  end.
(** The queue is started with steps. *)
Definition first_steps (q : list de) : Prop := match q with e :: _ => has_steps (e_c e) = true | [] => True end.
Definition start_ok (e : devent) (s : dst) : Prop :=
  match e with
  | DCommit => match d_pc s with Some (x, true) => d_run s = false -> first_steps (d_q s ++ [x]) | _ => True end
  | DNull => d_run s = false -> first_steps (d_q s)
  | _ => True
  end.
(** The steps before a pause take more than 102 microseconds, and the latency. *)
Definition slow_ok (e : devent) (s : dst) : Prop :=
  e = DCommit -> match d_pc s with
                 | Some (x, _) => has_steps (e_c x) = false ->
                     forall q y, d_q s = q ++ [y] -> has_steps (e_c y) = true -> 2142 + L <= c_ticks (e_c y)
                 | None => True
                 end.
Definition short (e : devent) (s : dst) : Prop := Z.of_nat (length (d_acc s)) <= 1000000.
Definition timely (e : devent) (s : dst) : Prop :=
  good e s /\ prompt e s /\ start_ok e s /\ slow_ok e s /\ short e s.

(** ** Invariant *)
Fixpoint slow (p : command) (q : list de) : Prop :=
  match q with
  | [] => True
  | e :: t => (has_steps p = true -> has_steps (e_c e) = false -> 2142 + L <= c_ticks p) /\ slow (e_c e) t
  end.
Definition left2 (s : dst) : list slot :=
  match d_q s with
  | [] => []
  | e :: r =>
    if d_pause s then (match h_upd (d_h s) with Some _ => slots (e_c e) | None => [] end) ++ stream (map e_c r)
    else (if h_edge (d_h s) then tl (rest1 HCU e) else rest1 HCU e)
         ++ (if has_steps (e_c e) then [] else slots (e_c e)) ++ stream (map e_c r)
  end.
(** in a pause: [t] is the time the interrupt has been enabled *)
Definition phase (s : dst) (e : de) (t : Z) : Prop :=
  let h := d_h s in
  d_en s = u32 (t / 21) /\ t <= now h /\ h_clk h - t <= 65535 * gaps (h_log h) /\ h_ie h = true
  /\ match h_upd h with
     | Some p => p = c_ticks (e_c e)
        /\ (h_clk h <= t <= h_clk h + L /\ 2142 + L <= h_per h \/ h_ev h = false /\ 2142 <= h_clk h - t)
     | None => h_ev h = true /\ 2142 <= h_clk h - t
     end.
Definition inv2m (s : dst) : Prop :=
  if d_run s then
    (d_pause s = false -> h_edge (d_h s) = true -> h_upd (d_h s) = None)
    /\ (d_pause s = true -> forall e r, d_q s = e :: r -> exists t, phase s e t)
  else True.
Record inv2 (s : dst) : Prop := {
  i2_inv : inv HCU [] [] s;
  i2_mode : inv2m s;
  i2_slow : match d_q s with [] => True | e :: r => slow (e_c e) r end;
  i2_off : 0 <= h_off (d_h s);
  i2_per : 0 <= h_per (d_h s) <= 65535 /\ match h_upd (d_h s) with Some p => 0 <= p <= 65535 | None => True end;
  i2_log : h_log (d_h s) ++ left2 s = stream (d_acc s)
}.
Lemma inv2_init d t : inv2 (dinit d t).
Proof.
  constructor; cbn; auto; try lia; try exact I. apply inv_init.
Qed.
Lemma slow_app q e : forall p, slow p q ->
  (has_steps (e_c e) = false -> (q = [] -> has_steps p = true -> 2142 + L <= c_ticks p)
     /\ forall q' y, q = q' ++ [y] -> has_steps (e_c y) = true -> 2142 + L <= c_ticks (e_c y)) ->
  slow p (q ++ [e]).
Proof.
  induction q as [|x q IH]; intros p S H; cbn [app slow] in *.
  - split; [|exact I]. intros A B. apply H; auto.
  - destruct S as [S1 S2]. split; [auto|]. apply IH; auto. intros B. destruct (H B) as [H1 H2]. split.
    + intros -> Hx. apply (H2 [] x); auto.
    + intros q' y -> Hy. apply (H2 (x :: q') y); auto.
Qed.
Lemma rest1_slots e : 0 < e_left e -> fresh e -> rest1 HCU e = slots (e_c e).
Proof. intros P [F Lf]. unfold rest1, DueFacts.slots. rewrite Lf in *. destruct (Z.eqb_spec (c_steps (e_c e)) 0); [lia|reflexivity]. Qed.
Lemma fresh_left e : fresh e -> rest1 HCU e ++ (if has_steps (e_c e) then [] else slots (e_c e)) = slots (e_c e).
Proof.
  intros F. destruct (has_steps (e_c e)) eqn:H.
  - rewrite app_nil_r. apply rest1_slots; auto. destruct F as [F ->]. now apply has_steps_pos.
  - destruct F as [F Lf]. unfold has_steps in H. destruct (Z.gtb_spec (c_steps (e_c e)) 0); [discriminate|].
    rewrite rest1_zero; [reflexivity|]. destruct F; lia.
Qed.
Lemma stream_cons c l : stream (c :: l) = slots c ++ stream l.
Proof. reflexivity. Qed.
Lemma acc_log s : inv2 s -> Z.of_nat (length (d_acc s)) <= 1000000 -> gaps (h_log (d_h s)) <= 1000000.
Proof.
  intros I H. pose proof (i2_log s I) as E. pose proof (gaps_stream (d_acc s)) as G. rewrite <- E, gaps_app in G.
  pose proof (gaps_nonneg (left2 s)). lia.
Qed.

Lemma wait2 n s : 0 <= n -> inv2 s -> inv2 (with_h (wait n (d_h s)) s).
Proof.
  intros N [I M S O P G]. constructor; cbn; auto; try lia.
  - now apply wait_inv.
  - unfold inv2m in *. cbn. destruct (d_run s); auto. destruct M as [M1 M2]. split; [auto|].
    intros Ps e r Q. destruct (M2 Ps e r Q) as (t & A & B & C & D & E). exists t. unfold phase, now in *. cbn -[Z.mul Z.add Z.sub].
    splits; auto. lia.
Qed.

Lemma period2 s : inv2 s -> prompt DPeriod s -> h_on (d_h s) = true -> inv2 (with_h (end_period (d_h s)) s).
Proof.
  intros I2 [W1 W2] On. pose proof I2 as [I M S O P G].
  assert (I' : inv HCU [] [] (with_h (end_period (d_h s)) s)).
  { pose proof (period_inv HCU [] [] s I W1) as H. rewrite On in H. exact H. }
  pose proof I as [Md _ _ _]. destruct P as [P1 P2].
  assert (Pn : 0 <= match h_upd (d_h s) with Some t => t | None => h_per (d_h s) end <= 65535)
    by (destruct (h_upd (d_h s)); auto).
  destruct (d_run s) eqn:R.
  - unfold inv2m in M. rewrite R in M. destruct M as [M1 M2]. destruct Md as [Md|Md].
    + destruct Md as (N1 & N2 & N3 & N4 & e & r & Q & F & Lf & T & Lv & Pe & C).
      constructor; auto.
      * unfold inv2m. cbn. rewrite R. unfold end_period. rewrite N3. cbn. split; [auto|]. rewrite N1. discriminate.
      * unfold end_period. rewrite N3. cbn. lia.
      * unfold end_period. rewrite N3. cbn. auto.
      * unfold left2 in *. cbn [with_h d_h d_q d_pause d_acc]. rewrite Q, N1 in *. rewrite W1 in G.
        unfold end_period. rewrite N3. cbn [negb begin_period h_log h_edge h_pwm h_dir h_per h_upd]. rewrite W1, N4. cbn [orb].
        rewrite rest1_pos in * by lia. cbn [tl app] in *. rewrite <- app_assoc. cbn [app]. unfold period_next in Pe.
        rewrite Pe, <- Lv. exact G.
    + destruct Md as (N1 & N2 & N3 & N4 & N5 & e & r & Q & F & S0 & Lf & Lv & C).
      destruct (M2 N1 e r Q) as (t & A1 & A2 & A3 & A4 & A5).
      rewrite A4, andb_true_r in W2. rewrite W2 in A5.
      destruct (h_upd (d_h s)) as [p|] eqn:U; [|destruct A5; discriminate].
      destruct A5 as [-> A5].
      assert (Hs : has_steps (e_c e) = false) by (unfold has_steps; now rewrite S0).
      assert (D : 2142 <= h_clk (d_h s) + h_per (d_h s) - t) by (destruct A5 as [A5|A5]; lia).
      constructor; auto.
      * unfold inv2m. cbn. rewrite R. unfold end_period. rewrite N3. cbn. rewrite N1, N4, U. split; [discriminate|].
        intros _ e' r' Q'. exists t. unfold phase, now. cbn -[Z.mul Z.add Z.sub]. splits; auto; try lia.
        rewrite gaps_app. change (gaps [Gap (c_ticks (e_c e))]) with 1. lia.
      * unfold end_period. rewrite N3. cbn. lia.
      * unfold end_period. rewrite N3. cbn. rewrite U. auto.
      * unfold left2 in *. cbn [with_h d_h d_q d_pause d_acc]. rewrite Q, N1, U in *.
        unfold end_period. rewrite N3. cbn [negb begin_period h_log h_edge h_pwm h_dir h_per h_upd]. rewrite U, N4.
        cbn [app]. rewrite <- app_assoc. cbn [app]. rewrite <- G. unfold DueFacts.slots. rewrite S0. reflexivity.
  - destruct Md as (N1 & N2 & N3 & N4 & N5). specialize (N3 On).
    constructor; auto.
    + unfold inv2m. cbn. now rewrite R.
    + unfold end_period. rewrite N3. cbn. lia.
    + unfold end_period. rewrite N3. cbn. auto.
    + unfold left2 in *. cbn [with_h d_h d_q d_pause d_acc]. unfold end_period. rewrite N3.
      cbn [h_log h_edge h_upd]. rewrite N1 in *. exact G.
Qed.

Lemma chain_fresh : forall q d st, chain HCU d st q -> forall e, In e q -> fresh e.
Proof.
  induction q as [|x q IH]; intros d st C e H; [contradiction|]. destruct C as (C1 & _ & _ & C2).
  destruct H as [<-|H]; [exact C1|]. eapply IH; eauto.
Qed.
Lemma pio2 s : inv2 s -> prompt DPio s -> inv2 (pio_isr s).
Proof.
  intros I2 W. pose proof I2 as [I M S O P G]. pose proof (pio_inv HCU [] [] s I) as I'.
  unfold pio_isr in *. destruct (h_edge (d_h s)) eqn:Ed; [|exact I2]. cbn in W. specialize (W Ed).
  pose proof I as [Md _ _ _].
  destruct (d_run s) eqn:R; [|destruct Md as (_ & Md & _); congruence].
  destruct Md as [Md|Md]; [|destruct Md as (_ & _ & _ & _ & Md & _); congruence].
  destruct Md as (N1 & N2 & N3 & N4 & e & r & Q & F & Lf & T & Lv & Pe & C).
  unfold inv2m in M. rewrite R in M. destruct M as [M1 M2]. specialize (M1 N1 Ed).
  rewrite N1, Q in *. cbn [negb orb] in *. unfold pio_count in *.
  destruct F as [F1 F2]. rewrite u8_dec in * by lia. unfold left2 in G. rewrite N1, Q, Ed in G. cbn [negb orb] in *.
  assert (Hs : has_steps (e_c e) = true) by (unfold has_steps; destruct (Z.gtb_spec (c_steps (e_c e)) 0); auto; lia).
  rewrite Hs in G. cbn [app] in G. rewrite rest1_pos in G by lia. cbn [tl] in G.
  destruct (Z.eqb_spec (e_left e - 1) 0) as [Z0|Z0].
  2: { constructor; [exact I'|..]; cbn [with_hq clr_edge d_h d_q d_run d_pause d_acc h_edge h_upd h_off h_per h_log d_en e_c e_left]; auto; try exact S.
       - unfold inv2m. cbn. rewrite R, N1. split; [discriminate|discriminate].
       - unfold left2. cbn [with_hq clr_edge d_h d_q d_run d_pause d_acc h_edge h_upd e_c]. rewrite N1, Hs. exact G. }
  rewrite T, toggle_false in *. rewrite rest1_zero in G by (cbn [e_left]; lia). cbn [app] in G.
  unfold pio_next in *. destruct r as [|e2 r2].
  - constructor; [exact I'|..]; cbn; auto.
  - cbn [chain] in C. destruct C as ([C1 C2] & C3 & C4 & C5). cbn [slow] in S. destruct S as [S1 S2].
    destruct (Z.eqb_spec (e_left e2) 0) as [E0|E0]; cbn [orb] in *.
    + assert (S0 : c_steps (e_c e2) = 0) by congruence.
      assert (H2 : has_steps (e_c e2) = false) by (unfold has_steps; now rewrite S0).
      specialize (S1 Hs H2). unfold period_next in Pe. rewrite M1 in Pe.
      constructor; [exact I'|..]; cbn [with_hq clr_edge w_upd w_pwm w_ie d_h d_q d_run d_pause d_acc h_edge h_upd h_off h_per h_log d_en e_c e_left].
      * unfold inv2m. cbn. rewrite R. split; [discriminate|]. intros _ x y X. injection X as <- <-.
        exists (now (d_h s)). unfold phase, micros, now. cbn -[Z.mul Z.add Z.sub]. splits; auto; try lia.
        { pose proof (gaps_nonneg (h_log (d_h s))). lia. }
      * exact S2.
      * exact O.
      * split; [tauto|]. destruct C1; lia.
      * unfold left2. cbn. rewrite <- G. reflexivity.
    + assert (S0 : 0 < c_steps (e_c e2)) by (destruct C1; lia).
      assert (H2 : has_steps (e_c e2) = true) by (now apply has_steps_pos).
      rewrite H2 in *. cbn [negb] in *.
      constructor; [exact I'|..]; cbn [with_hq clr_edge w_upd w_pwm w_ie toggle w_dir d_h d_q d_run d_pause d_acc h_edge h_upd h_off h_per h_log d_en e_c e_left].
      * unfold inv2m. cbn. rewrite R, N1. split; discriminate.
      * exact S2.
      * exact O.
      * split; [tauto|]. destruct C1; lia.
      * unfold left2. cbn [with_hq clr_edge w_upd w_pwm w_ie toggle w_dir d_h d_q d_run d_pause d_acc h_edge h_upd h_off h_per h_log d_en e_c e_left].
        rewrite N1, H2, <- G. cbn [map app]. rewrite stream_cons. f_equal. f_equal.
        unfold rest1, DueFacts.slots. cbn [e_c e_left]. rewrite C2. destruct (Z.eqb_spec (c_steps (e_c e2)) 0); [lia|reflexivity].
Qed.

Lemma pwm2 s : inv2 s -> prompt DPwm s -> Z.of_nat (length (d_acc s)) <= 1000000 -> inv2 (pwm_isr s).
Proof.
  intros I2 W Sh. pose proof (acc_log s I2 Sh) as Gl. pose proof I2 as [I M S O P G]. pose proof (pwm_inv HCU [] [] s I) as I'.
  unfold pwm_isr in *. destruct (h_ev (d_h s)) eqn:Ev; [|exact I2]. cbn in W. specialize (W Ev).
  pose proof I as [Md _ _ _].
  destruct (d_run s) eqn:R.
  2: { destruct Md as (N1 & N2 & N3 & N4 & N5). rewrite N1 in *.
       destruct (elapsed (micros (clr_ev (d_h s))) (d_en s) <? 100); (constructor; [exact I'|..]; auto);
         try (unfold inv2m; cbn; now rewrite R); rewrite <- G; reflexivity. }
  unfold inv2m in M. rewrite R in M. destruct M as [M1 M2]. destruct Md as [Md|Md].
  - destruct Md as (N1 & _). rewrite N1 in *.
    destruct (elapsed (micros (clr_ev (d_h s))) (d_en s) <? 100); (constructor; [exact I'|..]; auto);
      try (unfold inv2m; cbn; rewrite R, N1; split; [auto|discriminate]); rewrite <- G; reflexivity.
  - destruct Md as (N1 & N2 & N3 & N4 & N5 & e & r & Q & F & S0 & Lf & Lv & C).
    destruct (M2 N1 e r Q) as (t & A1 & A2 & A3 & A4 & A5). specialize (W A4).
    assert (Mi : micros (clr_ev (d_h s)) = u32 (now (d_h s) / 21)) by reflexivity. rewrite Mi, A1 in *.
    unfold left2 in G. rewrite N1, Q in G.
    destruct (h_upd (d_h s)) as [p|] eqn:U.
    + destruct A5 as [-> A5]. destruct A5 as [[A5 A6]|[A5 _]]; [|congruence].
      rewrite elapsed_short in * by (unfold now in *; lia).
      constructor; [exact I'|..]; cbn [with_h clr_ev d_h d_q d_run d_pause d_acc h_edge h_upd h_off h_per h_log d_en e_c e_left]; auto.
      * unfold inv2m. cbn. rewrite R, N1. split; [discriminate|]. intros _ x y X. rewrite X in Q. injection Q as -> ->.
        exists t. unfold phase, now in *. cbn -[Z.mul Z.add Z.sub]. rewrite U. splits; auto; lia.
      * now rewrite U.
      * unfold left2. cbn. rewrite N1, Q, U. exact G.
    + destruct A5 as [_ A5]. rewrite elapsed_long in * by (unfold now in *; lia).
      rewrite N1, Q in *. unfold pwm_next in *. cbn [app] in G. destruct r as [|e2 r2].
      * constructor; [exact I'|..]; cbn; auto; try exact I. now rewrite U.
      * cbn [chain] in C. destruct C as ([C1 C2] & C3 & C4 & C5). cbn [slow] in S. destruct S as [S1 S2].
        cbn [map] in G. rewrite stream_cons in G.
        destruct (Z.gtb_spec (e_left e2) 0) as [E0|E0].
        { assert (H2 : has_steps (e_c e2) = true) by (apply has_steps_pos; auto; lia).
          constructor; [exact I'|..]; cbn [with_hq clr_ev w_upd w_pwm w_ie d_h d_q d_run d_pause d_acc h_edge h_upd h_off h_per h_log d_en e_c e_left]; auto.
          - unfold inv2m. cbn. rewrite R. split; [intros _ X; congruence|discriminate].
          - split; [tauto|]. destruct C1; lia.
          - unfold left2. cbn [with_hq clr_ev w_upd w_pwm w_ie d_h d_q d_run d_pause d_acc h_edge h_upd h_off h_per h_log d_en e_c e_left].
            rewrite N5, H2, <- G. cbn [app]. rewrite rest1_slots; auto; try lia. split; auto. }
        { assert (Z0 : c_steps (e_c e2) = 0) by (destruct C1; lia).
          constructor; [exact I'|..]; cbn [with_hq clr_ev w_upd w_pwm w_ie d_h d_q d_run d_pause d_acc h_edge h_upd h_off h_per h_log d_en e_c e_left]; auto.
          - unfold inv2m. cbn. rewrite R, N1. split; [discriminate|]. intros _ x y X. injection X as <- <-.
            exists t. unfold phase, now in *. cbn -[Z.mul Z.add Z.sub]. splits; auto; lia.
          - split; [tauto|]. destruct C1; lia.
          - unfold left2. cbn [with_hq clr_ev w_upd w_pwm w_ie d_h d_q d_run d_pause d_acc h_edge h_upd h_off h_per h_log d_en e_c e_left].
            rewrite N1. exact G. }
Qed.

Lemma start2 s : inv2 s -> d_run s = false -> first_steps (d_q s) -> inv2 (start s).
Proof.
  intros I2 R Fs. pose proof I2 as [I M S O P G]. pose proof (start_inv HCU [] [] s I R) as I'.
  unfold start in *. destruct (d_q s) as [|e r] eqn:Q; [exact I2|]. cbn in Fs.
  pose proof I as [Md _ _ _]. rewrite R in Md. destruct Md as (N1 & N2 & N3 & N4 & N5). rewrite Q in N5.
  destruct N5 as ([F Lf] & T & Lv & C). rewrite Fs, orb_true_r in *. assert (S0 : 0 < c_steps (e_c e)) by (now apply has_steps_pos).
  change (if h_on (d_h s) then w_upd (c_ticks (e_c e)) (d_h s) else w_per (c_ticks (e_c e)) (d_h s))
    with (preset (c_ticks (e_c e)) (d_h s)) in *.
  rewrite start_steps_eq in *. unfold left2 in G. rewrite Q, N1, N2, Fs in G. cbn [app] in G.
  destruct (h_on (d_h s)) eqn:On.
  - constructor; [exact I'|..]; cbn [with_hq d_h d_q d_run d_pause d_acc h_edge h_upd h_off h_per h_log d_en e_c e_left]; auto.
    + unfold inv2m. cbn. rewrite N1, N2. split; discriminate.
    + split; [tauto|]. destruct F; lia.
    + unfold left2. cbn [with_hq d_h d_q d_run d_pause d_acc h_edge h_upd]. rewrite N1, N2, Fs. exact G.
  - specialize (N4 eq_refl). constructor; [exact I'|..]; cbn [with_hq d_h d_q d_run d_pause d_acc h_edge h_upd h_off h_per h_log d_en e_c e_left]; auto.
    + unfold inv2m. cbn. rewrite N1, N4. split; [auto|discriminate].
    + lia.
    + rewrite N4. split; [destruct F; lia|exact Logic.I].
    + unfold left2. cbn [with_hq d_h d_q d_run d_pause d_acc h_edge h_upd]. rewrite N1, Fs. rewrite <- G.
      rewrite rest1_pos by lia. cbn [tl app]. rewrite <- app_assoc. cbn [app]. now rewrite Lv.
Qed.

Lemma put2 e st s : inv2 s -> d_pc s = Some (e, st) -> turn_ok DCommit s -> slow_ok DCommit s -> inv2 (put HCU e s).
Proof.
  intros I2 N T W. pose proof I2 as [I M S O P G]. pose proof (put_inv HCU [] [] e st s I N T) as I'.
  unfold slow_ok in W. specialize (W eq_refl). rewrite N in W.
  assert (Fe : fresh e) by (pose proof (inv_pc _ _ _ _ I) as Pc; unfold pc_ok in Pc; rewrite N in Pc; tauto).
  assert (LO : left2 (put HCU e s) = left2 s ++ slots (e_c e)).
  { unfold left2, put. cbn [d_q d_pause d_h]. destruct (d_q s) as [|x r] eqn:Q; cbn [app].
    - pose proof I as [Md _ _ _]. destruct (d_run s).
      { destruct Md as [Md|Md]; [destruct Md as (_ & _ & _ & _ & a & b & X & _)|destruct Md as (_ & _ & _ & _ & _ & a & b & X & _)]; congruence. }
      destruct Md as (N1 & N2 & _). rewrite N1, N2. cbn [map]. unfold DueFacts.stream. cbn [map concat]. rewrite app_nil_r.
      apply fresh_left; auto.
    - rewrite map_app. cbn [map]. rewrite stream_app, stream_one. destruct (d_pause s); now rewrite <- ?app_assoc. }
  constructor; [exact I'|..].
  - unfold inv2m in *. unfold put. cbn. destruct (d_run s) eqn:R; [|exact Logic.I]. destruct M as [M1 M2]. split; [exact M1|].
    intros Ps x y X. pose proof I as [Md _ _ _]. rewrite R in Md.
    destruct Md as [Md|Md]; [destruct Md; congruence|]. destruct Md as (_ & _ & _ & _ & _ & a & b & Q & _).
    rewrite Q in X. injection X as <- <-. exact (M2 Ps a b Q).
  - unfold put. cbn [d_q]. destruct (d_q s) as [|x r] eqn:Q; cbn [app]; [exact Logic.I|].
    apply slow_app; auto. intros Hs. split.
    + intros -> Hx. apply (W Hs [] x); auto.
    + intros q' y -> Hy. apply (W Hs (x :: q') y); auto.
  - exact O.
  - exact P.
  - rewrite LO. unfold put. cbn [d_h d_acc]. rewrite app_assoc, G, stream_app, stream_one. reflexivity.
Qed.

Lemma begin2 c st s : inv2 s -> d_pc s = None -> cmd_fits c -> inv2 (add_begin HCU c st s).
Proof.
  intros I2 N F. pose proof I2 as [I M S O P G]. pose proof (begin_inv HCU [] [] c st s I N F) as I'.
  unfold add_begin in *. destruct (idle s) eqn:Id; constructor; auto.
Qed.

Lemma dstep2 e s : inv2 s -> timely e s -> inv2 (dstep HCU e s).
Proof.
  intros I ((F & N & P & T) & W & St & Sl & Sh). destruct e; cbn [dstep].
  - destruct (d_pc s) eqn:E; auto. apply begin2; auto.
  - unfold add_commit. destruct (d_pc s) as [[x st]|] eqn:E; auto.
    assert (I1 : inv2 (put HCU x s)) by (eapply put2; eauto). fold (put HCU x s).
    destruct (d_run s) eqn:R; [exact I1|]. destruct st; [|exact I1]. cbn [negb andb]. apply start2; auto.
    cbn in St. rewrite E in St. apply St. exact R.
  - destruct (d_pc s); auto. unfold add_null. destruct (d_run s) eqn:R; auto. apply start2; auto.
  - apply wait2; auto.
  - destruct (h_on (d_h s)) eqn:On; auto. apply period2; auto.
  - apply pio2; auto.
  - apply pwm2; auto.
  - contradiction N; reflexivity.
  - cbn in W. pose proof I as [I0 M2 S2 O2 P2 G2]. constructor; auto.
    + destruct I0 as [M E Pc Lg]. constructor; auto.
    + unfold inv2m in *. cbn. rewrite W in *. destruct (d_run s); auto. split; [apply M2|discriminate].
Qed.
Lemma drun2 evs : forall s, inv2 s -> along HCU timely evs s -> inv2 (drun HCU evs s).
Proof. induction evs as [|e t IH]; intros s I G; [auto|]. destruct G as [G1 G2]. apply IH; auto. apply dstep2; auto. Qed.
End Spec.

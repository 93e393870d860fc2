(** * MoveTimedFacts: the commands planned by moveTimed *)
From Coq Require Import ZArith Bool List Lia ZifyBool.
From Verif Require Import Base RampCalc RampGen Queue QueueHist Stepper StepperHist FrontHist FrontProp MoveTimed.
Import ListNotations.
Open Scope Z_scope.
Ltac Zify.zify_post_hook ::= idtac.

Definition sumZ (l : list Z) : Z := fold_right Z.add 0 l.
Lemma sumZ_app l1 l2 : sumZ (l1 ++ l2) = sumZ l1 + sumZ l2.
Proof. unfold sumZ. induction l1 as [|a l IH]; cbn [app fold_right]; lia. Qed.
(** the commands alone; their steps, durations, and what is added to *actual_duration *)
Definition cmds (l : list (command * Z)) : list command := map fst l.
Definition n_steps (l : list command) : Z := sumZ (map c_steps l).
Definition n_ticks (l : list command) : Z := sumZ (map cdur l).
Definition n_act (l : list (command * Z)) : Z := sumZ (map snd l).
Definition count {Y} (l : list Y) : Z := Z.of_nat (length l).
Lemma n_steps_app l1 l2 : n_steps (l1 ++ l2) = n_steps l1 + n_steps l2.
Proof. unfold n_steps. rewrite map_app. apply sumZ_app. Qed.
Lemma n_ticks_app l1 l2 : n_ticks (l1 ++ l2) = n_ticks l1 + n_ticks l2.
Proof. unfold n_ticks. rewrite map_app. apply sumZ_app. Qed.
Lemma cmds_app l1 l2 : cmds (l1 ++ l2) = cmds l1 ++ cmds l2.
Proof. apply map_app. Qed.
Lemma count_app {Y} (l1 l2 : list Y) : count (l1 ++ l2) = count l1 + count l2.
Proof. unfold count. rewrite app_length. lia. Qed.
Lemma count_cons {Y} (x : Y) l : count (x :: l) = 1 + count l.
Proof. unfold count. cbn [length]. lia. Qed.
Lemma n_steps_cons c l : n_steps (c :: l) = c_steps c + n_steps l.
Proof. reflexivity. Qed.
Lemma n_ticks_cons c l : n_ticks (c :: l) = cdur c + n_ticks l.
Proof. reflexivity. Qed.
Lemma n_act_cons c d l : n_act ((c, d) :: l) = d + n_act l.
Proof. reflexivity. Qed.
Lemma n_act_app l1 l2 : n_act (l1 ++ l2) = n_act l1 + n_act l2.
Proof. unfold n_act. rewrite map_app. apply sumZ_app. Qed.
Lemma cmds_cons c d l : cmds ((c, d) :: l) = c :: cmds l.
Proof. reflexivity. Qed.

(** all commands have the given direction and the C types *)
Definition typed (up : bool) (l : list command) : Prop := Forall (fun c => cmd_ok c /\ c_up c = up) l.
Definition positive (l : list command) : Prop := Forall (fun c => 0 < c_ticks c) l.

(** ** Pauses *)
Lemma pause_facts : forall fuel d, 0 <= d < 4294967296 -> (d = 0 \/ d / 32768 + 1 <= Z.of_nat fuel) ->
  let l := pause_cmds fuel d in
  typed true (cmds l) /\ n_steps (cmds l) = 0 /\ n_ticks (cmds l) = d /\ n_act l = d
  /\ count l <= (d + 65534) / 65535
  /\ (0 < d <= 65535 -> l = [(mkCommand d 0 true, d)])
  /\ (65536 <= d -> Forall (fun c => 32768 <= c_ticks c /\ c_steps c = 0) (cmds l)).
Proof.
  induction fuel as [|fuel IH]; intros d Hd Hf.
  { assert (d = 0) as -> by (pose proof (Z.div_pos d 32768); lia).
    cbv zeta; splits; auto; try lia; try (constructor; fail). cbn; lia. }
  cbn [pause_cmds]. destruct (Z.gtb_spec d 0) as [H0|H0].
  2:{ assert (d = 0) by lia. subst d. cbv zeta. splits; auto; try lia; try (constructor; fail). }
  assert (HP : 0 < pause_piece d <= 65535 /\ pause_piece d <= d
     /\ (d <= 65535 -> pause_piece d = d)
     /\ (65536 <= d -> 32768 <= pause_piece d /\ 32768 <= d - pause_piece d
          /\ (d - pause_piece d + 65534) / 65535 + 1 <= (d + 65534) / 65535)).
  { unfold pause_piece. rewrite Z.shiftr_div_pow2 by lia. change (2 ^ 1) with 2.
    pose proof (Z.div_mod d 2). pose proof (Z.mod_pos_bound d 2).
    destruct (Z.leb_spec d 65535); [splits; lia|].
    destruct (Z.geb_spec d 131072).
    - splits; lia.
    - splits; lia. }
  destruct HP as (P1 & P2 & P3 & P4).
  set (x := pause_piece d) in *. clearbody x.
  assert (Hf' : d - x = 0 \/ (d - x) / 32768 + 1 <= Z.of_nat fuel).
  { destruct (Z.le_gt_cases d 65535) as [K|K].
    - left. rewrite P3 by lia. lia.
    - right. assert (L : (d - x) / 32768 <= (d + (-1) * 32768) / 32768) by (apply Z.div_le_mono; lia).
      rewrite Z.div_add in L by lia. lia. }
  destruct (IH (d - x)) as (I1 & I2 & I3 & I4 & I5 & I6 & I7); [lia|exact Hf'|].
  set (l := pause_cmds fuel (d - x)) in *. cbv zeta.
  rewrite cmds_cons, n_steps_cons, n_ticks_cons, n_act_cons, count_cons.
  unfold cdur at 1. cbn [c_ticks c_steps]. change (Z.max 1 0) with 1.
  splits; try lia.
  - constructor; [|exact I1]. split; [split; cbn; lia|reflexivity].
  - intros K. assert (x = d) by lia. subst x. 
    assert (l = []) by (unfold l; rewrite Z.sub_diag; destruct fuel; reflexivity). rewrite H. reflexivity.
  - intros K. constructor; [cbn; lia|].
    destruct (Z.le_gt_cases (d - x) 65535) as [K2|K2]; [|apply I7; lia].
    rewrite I6 by lia. constructor; [cbn; lia|constructor].
Qed.

(** ** Slow steps *)
Lemma slow_facts up : forall fuel k d, 0 <= k <= 1 -> 0 <= d < 4294967296 -> (d = 0 \/ d / 32768 + 1 <= Z.of_nat fuel) ->
  let l := slow_cmds fuel up k d in
  typed up (cmds l) /\ (0 < d -> n_steps (cmds l) = k)
  /\ (positive (cmds l) -> n_ticks (cmds l) = d /\ n_act l = d /\ count l <= (d + 65534) / 65535
      /\ (0 < d <= 65535 -> l = [(mkCommand d k up, d)])
      /\ (65536 <= d -> Forall (fun c => 32768 <= c_ticks c) (cmds l))).
Proof.
  induction fuel as [|fuel IH]; intros k d Hk Hd Hf.
  { assert (d = 0) as -> by (pose proof (Z.div_pos d 32768); lia).
    cbv zeta; splits; auto; try lia; try (constructor; fail). intros _. splits; auto; cbn; lia. }
  cbn [slow_cmds]. destruct (Z.eqb_spec d 0) as [H0|H0]; cbn [negb].
  { subst d. cbv zeta. splits; auto; try lia. { unfold typed; constructor. }
    intros _. splits; auto; cbn; lia. }
  assert (HP : 0 <= slow_piece d <= 65535 /\ slow_piece d <= d
     /\ (0 < slow_piece d -> (d <= 65535 -> slow_piece d = d)
     /\ (65536 <= d -> 32768 <= slow_piece d /\ 32768 <= d - slow_piece d
          /\ (d - slow_piece d + 65534) / 65535 + 1 <= (d + 65534) / 65535))).
  { unfold slow_piece.
    pose proof (Z.div_mod d 2). pose proof (Z.mod_pos_bound d 2).
    destruct (Z.gtb_spec d 131072).
    - splits; lia.
    - destruct (Z.gtb_spec d 65535).
      + destruct (Z.eq_dec d 131072) as [->|K]; [change (u16 (131072 / 2)) with 0; splits; lia|].
        assert (E : u16 (d / 2) = d / 2) by (unfold u16; apply Z.mod_small; lia). rewrite E.
        splits; try lia.
      + assert (E : u16 d = d) by (unfold u16; apply Z.mod_small; lia). rewrite E. splits; lia. }
  destruct HP as (P1 & P2 & P34).
  set (x := slow_piece d) in *. clearbody x.
  assert (E : u32 (d - x) = d - x) by (unfold u32; apply Z.mod_small; lia). rewrite E.
  cbv zeta. rewrite cmds_cons, n_steps_cons, n_ticks_cons, n_act_cons, count_cons. cbn [c_steps].
  assert (TY : forall fuel d, 0 <= d < 4294967296 -> typed up (cmds (slow_cmds fuel up 0 d)) /\ n_steps (cmds (slow_cmds fuel up 0 d)) = 0).
  { clear. induction fuel as [|fuel IH]; intros d Hd; cbn [slow_cmds]; [split; [constructor|reflexivity]|].
    destruct (negb (d =? 0)); [|split; [constructor|reflexivity]].
    assert (R : 0 <= slow_piece d <= 65535).
    { unfold slow_piece, u16. destruct (d >? 131072); [lia|].
      pose proof (Z.mod_pos_bound (d / 2) 65536). pose proof (Z.mod_pos_bound d 65536). destruct (d >? 65535); lia. }
    rewrite cmds_cons, n_steps_cons. cbn [c_steps].
    destruct (IH (u32 (d - slow_piece d))) as [I1 I2]; [unfold u32; apply Z.mod_pos_bound; lia|].
    split; [|lia]. constructor; [|exact I1]. split; [split; cbn; lia|reflexivity]. }
  destruct (TY fuel (d - x)) as [T1 T2]; [lia|].
  split; [constructor; [split; [split; cbn; lia|reflexivity]|exact T1]|].
  split; [lia|].
  intros HPos. inversion HPos as [|? ? Px HPos']; subst. cbn [c_ticks] in Px.
  destruct (P34 Px) as [P3 P4]. clear P34.
  assert (Hf' : d - x = 0 \/ (d - x) / 32768 + 1 <= Z.of_nat fuel).
  { destruct (Z.le_gt_cases d 65535) as [K|K].
    - left. rewrite P3 by lia. lia.
    - right. assert (L : (d - x) / 32768 <= (d + (-1) * 32768) / 32768) by (apply Z.div_le_mono; lia).
      rewrite Z.div_add in L by lia. lia. }
  destruct (IH 0 (d - x)) as (_ & _ & I3); [lia|lia|exact Hf'|].
  destruct (I3 HPos') as (I4 & I5 & I6 & I7 & I8).
  set (l := slow_cmds fuel up 0 (d - x)) in *.
  assert (EX : cdur (mkCommand x k up) = x) by (unfold cdur; cbn [c_ticks c_steps]; replace (Z.max 1 k) with 1 by lia; lia).
  rewrite EX. splits; try lia.
  - intros K. assert (x = d) by lia. subst x. 
    assert (l = []) by (unfold l; rewrite Z.sub_diag; destruct fuel; reflexivity). rewrite H. reflexivity.
  - intros K. constructor; [cbn; lia|].
    destruct (Z.le_gt_cases (d - x) 65535) as [K2|K2]; [|apply I8; lia].
    rewrite I7 by lia. constructor; [cbn; lia|constructor].
Qed.
Lemma repeat_facts up l : forall n,
  typed up (cmds l) ->
  typed up (cmds (repeat_cmds n l))
  /\ n_steps (cmds (repeat_cmds n l)) = Z.of_nat n * n_steps (cmds l)
  /\ n_ticks (cmds (repeat_cmds n l)) = Z.of_nat n * n_ticks (cmds l)
  /\ n_act (repeat_cmds n l) = Z.of_nat n * n_act l
  /\ count (repeat_cmds n l) = Z.of_nat n * count l
  /\ (forall P : command -> Prop, Forall P (cmds l) -> Forall P (cmds (repeat_cmds n l)))
  /\ (n <> O -> forall P : command -> Prop, Forall P (cmds (repeat_cmds n l)) -> Forall P (cmds l)).
Proof.
  intros n T. induction n as [|n (I1 & I2 & I3 & I4 & I5 & I6 & I7)]; cbn [repeat_cmds].
  - splits; auto; [constructor|intros; constructor|congruence].
  - rewrite cmds_app, n_steps_app, n_ticks_app, n_act_app, count_app, I2, I3, I4, I5, Nat2Z.inj_succ.
    splits; try lia.
    + apply Forall_app; split; assumption.
    + intros P HP. apply Forall_app; split; auto.
    + intros _ P HP. apply Forall_app in HP. tauto.
Qed.

(** ** Fast steps *)
Lemma chunk_range steps : 0 < steps ->
  1 <= fast_chunk steps <= 255 /\ fast_chunk steps <= steps
  /\ (steps <= 255 -> fast_chunk steps = steps)
  /\ (255 < steps -> 128 <= fast_chunk steps /\ 128 <= steps - fast_chunk steps
      /\ (steps - fast_chunk steps + 254) / 255 + 1 <= (steps + 254) / 255).
Proof.
  intros H. unfold fast_chunk. pose proof (Z.div_mod steps 2). pose proof (Z.mod_pos_bound steps 2).
  destruct (Z.gtb_spec steps 510).
  - splits; lia.
  - destruct (Z.gtb_spec steps 255); splits; try lia.
Qed.
Lemma fast_facts up : forall fuel steps ticks missing,
  0 <= steps < 32768 -> 0 <= ticks <= 65535 -> 0 <= missing -> (steps = 0 \/ steps / 128 + 1 <= Z.of_nat fuel) ->
  let l := fast_cmds fuel up steps ticks missing in
  typed up (cmds l) /\ n_steps (cmds l) = steps /\ count l <= (steps + 254) / 255
  /\ (positive (cmds l) ->
      exists bonus, n_ticks (cmds l) = ticks * steps + bonus /\ 0 <= bonus <= missing
      /\ Forall (fun c => ticks <= c_ticks c) (cmds l))
  /\ (0 < steps <= 255 -> steps <= missing \/ l = [(mkCommand ticks steps up, u32 (ticks * steps))])
  /\ (255 < steps -> Forall (fun c => 128 <= c_steps c) (cmds l)).
Proof.
  induction fuel as [|fuel IH]; intros steps ticks missing Hs Ht Hm Hf.
  { assert (steps = 0) as -> by (pose proof (Z.div_pos steps 128); lia).
    cbv zeta; splits; auto; try lia; try (constructor; fail); [cbn; lia|]. intros _. exists 0. splits; try (cbn; lia). constructor. }
  cbn [fast_cmds]. destruct (Z.gtb_spec steps 0) as [H0|H0].
  2:{ assert (steps = 0) by lia. subst steps. cbv zeta. splits; auto; try lia; try (unfold typed; apply Forall_nil); try (cbn; lia).
      intros _. exists 0. splits; try (cbn; lia). constructor. }
  destruct (chunk_range steps H0) as (C1 & C2 & C3 & C4).
  set (x := fast_chunk steps) in *. clearbody x.
  set (more := steps <=? missing).
  set (t := if more then u16 (ticks + 1) else ticks).
  set (m := if more then 0 else missing).
  assert (Rt : 0 <= t <= 65535).
  { unfold t. destruct more; [|lia]. unfold u16. pose proof (Z.mod_pos_bound (ticks + 1) 65536). lia. }
  assert (Rm : 0 <= m) by (unfold m; destruct more; lia).
  assert (Hf' : steps - x = 0 \/ (steps - x) / 128 + 1 <= Z.of_nat fuel).
  { destruct (Z.le_gt_cases steps 255) as [K|K].
    - left. rewrite C3 by lia. lia.
    - right. assert (L : (steps - x) / 128 <= (steps + (-1) * 128) / 128) by (apply Z.div_le_mono; lia).
      rewrite Z.div_add in L by lia. lia. }
  destruct (IH (steps - x) t m) as (I1 & I2 & I3 & I4 & I5 & I6); [lia|lia|lia|exact Hf'|].
  set (l := fast_cmds fuel up (steps - x) t m) in *.
  cbv zeta. rewrite cmds_cons, n_steps_cons, n_ticks_cons, count_cons. cbn [c_steps].
  assert (EX : cdur (mkCommand t x up) = t * x) by (unfold cdur; cbn [c_ticks c_steps]; replace (Z.max 1 x) with x by lia; lia).
  assert (NIL : steps <= 255 -> l = []).
  { intros K. unfold l. rewrite C3 by lia. rewrite Z.sub_diag. destruct fuel; reflexivity. }
  rewrite EX. splits.
  - constructor; [|exact I1]. split; [split; cbn; lia|reflexivity].
  - lia.
  - destruct (Z.le_gt_cases steps 255) as [K|K]; [|lia].
    rewrite NIL by lia. cbn. apply Z.div_le_lower_bound; lia.
  - intros HP. inversion HP as [|? ? Px HP']; subst. cbn [c_ticks] in Px.
    destruct (I4 HP') as (b & B1 & B2 & B3).
    assert (ET : t = if more then ticks + 1 else ticks).
    { unfold t in *. destruct more; [|reflexivity]. unfold u16 in *.
      destruct (Z.eq_dec ticks 65535) as [->|]; [change ((65535 + 1) mod 65536) with 0 in Px; lia|].
      apply Z.mod_small; lia. }
    destruct more eqn:EM; unfold m in B2; rewrite ET in *.
    + apply Z.leb_le in EM. exists (steps + b). splits; [rewrite B1; ring|lia|lia|].
      constructor; [cbn; lia|]. eapply Forall_impl; [|exact B3]. intros a. cbv beta. lia.
    + exists b. splits; [rewrite B1; ring|lia|lia|]. constructor; [cbn; lia|exact B3].
  - intros K. destruct (Z.le_gt_cases steps missing) as [M|M]; [now left|right].
    unfold t, more. destruct (Z.leb_spec steps missing); [lia|]. rewrite NIL by lia. rewrite C3 by lia. reflexivity.
  - intros K. constructor; [cbn; lia|].
    destruct (Z.le_gt_cases (steps - x) 255) as [K2|K2]; [|apply I6; lia].
    unfold l. destruct fuel as [|fuel']; [constructor|]. cbn [fast_cmds].
    destruct (Z.gtb_spec (steps - x) 0); [|constructor].
    rewrite cmds_cons.
    destruct (chunk_range (steps - x)) as (_ & _ & C3' & _); [lia|]. rewrite C3' by lia.
    rewrite Z.sub_diag. constructor; [cbn; lia|]. destruct fuel'; constructor.
Qed.

(** ** The plan *)
(** arguments of the C types; -32768 has no negative *)
Definition mt_args (steps duration : Z) : Prop :=
  -32768 < steps < 32768 /\ 0 <= duration < 4294967296 /\ (steps <> 0 \/ duration <> 0).
Definition steps_of (steps : Z) : Z := Z.abs steps.
Definition up_steps (steps : Z) : bool := negb (steps <? 0).

Record plan_spec (steps duration : Z) (l : list (command * Z)) : Prop := mkPlan {
  pl_typed : typed (up_steps steps) (cmds l);
  pl_steps : n_steps (cmds l) = Z.abs steps;
  pl_ticks : positive (cmds l) -> duration - Z.abs steps < n_ticks (cmds l) \/ steps = 0 /\ n_ticks (cmds l) = duration;
  pl_le : positive (cmds l) -> n_ticks (cmds l) <= duration;
  pl_act : positive (cmds l) -> (duration < 65536 * Z.abs steps -> Z.abs steps <= 255) -> n_act l = n_ticks (cmds l);
  pl_ne : l <> []
}.
Lemma fuel_nat d n : 0 < n -> 0 <= d -> d / n + 1 <= Z.of_nat (Z.to_nat (d / n + 1)).
Proof. intros. pose proof (Z.div_pos d n). lia. Qed.
Lemma plan_ok A steps duration free l : mt_args steps duration ->
  mt_plan A steps duration free = inr l -> plan_spec steps duration l.
Proof.
  intros (Hs & Hd & Hn). unfold mt_plan.
  destruct (Z.eqb_spec steps 0) as [->|H0].
  { destruct (_ >=? _); [discriminate|]. destruct (_ >=? _); [discriminate|]. intros E. injection E as <-.
    destruct (pause_facts (piece_fuel duration) duration) as (I1 & I2 & I3 & I4 & I5 & I6 & I7); [lia| |].
    { right. apply fuel_nat; lia. }
    cbv zeta in *. constructor; auto; try lia.
    intros E. rewrite E in I3. cbn in I3. lia. }
  cbv zeta.
  set (k := if steps <? 0 then i16 (- steps) else steps).
  assert (Ek : k = Z.abs steps /\ 0 < k < 32768).
  { unfold k. destruct (Z.ltb_spec steps 0); [|lia]. unfold i16.
    rewrite Z.mod_small by lia. lia. }
  destruct Ek as [Ek Rk]. clearbody k.
  assert (Eu : u32 k = k) by (unfold u32; apply Z.mod_small; lia). rewrite Eu.
  pose proof (Z.div_mod duration k). pose proof (Z.mod_pos_bound duration k). 
  assert (Rr : 0 <= duration / k <= duration).
  { split; [apply Z.div_pos; lia|]. apply Z.div_le_upper_bound; nia. }
  set (rate := duration / k) in *. fold (up_steps steps).
  destruct (Z.gtb_spec rate 65535) as [Hr|Hr].
  - repeat (destruct (_ >=? _); [discriminate|]). destruct (_ >? _); [discriminate|]. intros E. injection E as <-.
    destruct (slow_facts (up_steps steps) (piece_fuel rate) 1 rate) as (I1 & I2 & I3); [lia|lia| |].
    { right. apply fuel_nat; lia. }
    set (l := slow_cmds (piece_fuel rate) (up_steps steps) 1 rate) in *.
    destruct (repeat_facts (up_steps steps) l (Z.to_nat k) I1) as (J1 & J2 & J3 & J4 & J5 & J6 & J7).
    assert (PP : positive (cmds (repeat_cmds (Z.to_nat k) l)) -> positive (cmds l)) by (apply J7; lia).
    rewrite Z2Nat.id in * by lia.
    constructor; rewrite <- ?Ek; auto.
    + rewrite J2, I2 by lia. lia.
    + intros HP. destruct (I3 (PP HP)) as (K1 & K2 & K3 & _). rewrite J3, K1. lia.
    + intros HP. destruct (I3 (PP HP)) as (K1 & K2 & K3 & _). rewrite J3, K1. lia.
    + intros HP _. destruct (I3 (PP HP)) as (K1 & K2 & K3 & _). lia.
    + intros E. rewrite E in J2. cbn in J2. rewrite I2 in J2 by lia. lia.
  - destruct (_ >? _); [discriminate|]. destruct (_ >? _); [discriminate|]. intros E. injection E as <-.
    assert (Em : i16 (duration - u32 (rate * k)) = duration mod k).
    { assert (E1 : u32 (rate * k) = rate * k) by (unfold u32; apply Z.mod_small; nia).
      rewrite E1. replace (duration - rate * k) with (duration mod k) by lia.
      unfold i16. rewrite Z.mod_small by lia. lia. }
    rewrite Em. set (m := duration mod k) in *.
    destruct (fast_facts (up_steps steps) (fast_fuel k) k rate m) as (I1 & I2 & I3 & I4 & I5 & I6); [lia|lia|lia| |].
    { right. apply fuel_nat; lia. }
    set (l := fast_cmds (fast_fuel k) (up_steps steps) k rate m) in *.
    constructor; rewrite <- ?Ek; auto.
    + intros HP. destruct (I4 HP) as (b & B1 & B2 & B3). lia.
    + intros HP. destruct (I4 HP) as (b & B1 & B2 & B3). lia.
    + intros HP Hk.
      assert (Hk' : k <= 255) by (apply Hk; nia).
      destruct I5 as [I5|I5]; [lia|lia|]. rewrite I5. cbn [cmds map fst n_act snd].
      unfold n_ticks, n_act, cdur. cbn [map fst snd sumZ fold_right c_ticks c_steps].
      replace (u32 (rate * k)) with (rate * k) by (symmetry; unfold u32; apply Z.mod_small; nia).
      replace (Z.max 1 k) with k by lia. lia.
    + intros E. rewrite E in I2. cbn in I2. lia.
Qed.

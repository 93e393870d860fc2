(** * DuePins: step pins and PWM channels of the Arduino Due
    src/StepperISR_due.cpp; line numbers without file refer to it. *)
From Coq Require Import ZArith Bool List Lia.
From Verif Require Import Base.
Import ListNotations.
Open Scope Z_scope.
Ltac Zify.zify_post_hook ::= idtac.

(** pinToChannel(): lines 418-453 *)
Definition in_list (p : Z) (l : list Z) : bool := existsb (Z.eqb p) l.
Definition pinToChannel (p : Z) : Z :=
  if in_list p [34; 67; 73; 35] then 0
  else if in_list p [17; 36; 72; 37; 42] then 1
  else if in_list p [38; 43; 63; 39] then 2
  else if in_list p [40; 64; 69; 41] then 3
  else if p =? 9 then 4
  else if in_list p [8; 44] then 5
  else if in_list p [7; 45] then 6
  else if p =? 6 then 7
  else 4294967295.

(** [b_used]: channelsUsed[]. [b_map]: TimerChannel_Map[]. [b_pins]: step pins of the queues 0, 1, ... *)
Record board := mkBoard { b_used : list bool; b_map : list Z; b_pins : list Z }.
(** lines 78, 97 *)
Definition b_init : board := mkBoard (repeat false 8) (repeat 0 8) [].
Fixpoint put_nth {T} (i : nat) (x : T) (l : list T) : list T :=
  match l, i with
  | [], _ => []
  | _ :: l', O => x :: l'
  | y :: l', S i' => y :: put_nth i' x l'
  end.
(** isValidStepPin(): lines 699-706 *)
Definition isValidStepPin (p : Z) (b : board) : bool :=
  if pinToChannel p <? 8 then negb (nth (Z.to_nat (pinToChannel p)) (b_used b) false) else false.
(** StepperQueue::init(): lines 460, 466-468. [q]: queue_num *)
Definition init (q p : Z) (b : board) : board :=
  let c := Z.to_nat (pinToChannel p) in
  mkBoard (put_nth c true (b_used b)) (put_nth c q (b_map b)) (b_pins b ++ [p]).
(** stepperConnectToPin(): src/FastAccelStepper.cpp:70-126 with queueNumForStepPin() -1 (line 710) and
    MAX_STEPPER 6 (src/fas_arch/arduino_sam.h:13). The answer: queue number, or none *)
Definition connect (p : Z) (b : board) : board * option Z :=
  let n := Z.of_nat (length (b_pins b)) in
  if in_list p (b_pins b) then (b, None)
  else if negb (isValidStepPin p b) then (b, None)
  else if n >=? 6 then (b, None)
  else (init n p b, Some n).
Definition connects (l : list Z) : board := fold_left (fun b p => fst (connect p b)) l b_init.

(** ** Facts *)
Lemma isValid_and p b : isValidStepPin p b = (pinToChannel p <? 8) && negb (nth (Z.to_nat (pinToChannel p)) (b_used b) false).
Proof. reflexivity. Qed.
Lemma put_nth_length {T} (x : T) : forall l i, length (put_nth i x l) = length l.
Proof. induction l as [|y l IH]; intros [|i]; cbn; auto. Qed.
Lemma nth_put {T} (x d : T) : forall l i j, (i < length l)%nat -> nth j (put_nth i x l) d = if Nat.eqb j i then x else nth j l d.
Proof.
  induction l as [|y l IH]; intros [|i] [|j] H; cbn in *; try lia; auto. apply IH. lia.
Qed.
Lemma channel_range p : 0 <= pinToChannel p.
Proof. unfold pinToChannel. repeat match goal with |- context [if ?b then _ else _] => destruct b end; lia. Qed.

Definition wf (b : board) : Prop :=
  length (b_used b) = 8%nat /\ length (b_map b) = 8%nat /\ (length (b_pins b) <= 6)%nat
  /\ (forall i, (i < length (b_pins b))%nat ->
        let c := pinToChannel (nth i (b_pins b) 0) in
        c < 8 /\ nth (Z.to_nat c) (b_used b) false = true /\ nth (Z.to_nat c) (b_map b) 0 = Z.of_nat i).
Lemma wf_connect p b : wf b -> wf (fst (connect p b)).
Proof.
  intros W. unfold connect. destruct (in_list p (b_pins b)); [exact W|].
  destruct (isValidStepPin p b) eqn:V; [|exact W]. cbn [negb].
  destruct (Z.geb_spec (Z.of_nat (length (b_pins b))) 6) as [G|G]; [exact W|].
  destruct W as (U & M & L & I). rewrite isValid_and in V. apply andb_prop in V. destruct V as [V1 V2].
  apply Z.ltb_lt in V1. apply negb_true_iff in V2. pose proof (channel_range p) as C.
  assert (C8 : (Z.to_nat (pinToChannel p) < 8)%nat) by lia.
  cbn [fst init]. unfold wf, init. cbn [b_used b_map b_pins]. rewrite !put_nth_length, app_length. cbn [length].
  repeat split; auto; try lia.
  - destruct (Nat.eq_dec i (length (b_pins b))) as [->|Ne].
    + rewrite nth_middle. lia.
    + rewrite app_nth1 by lia. apply I. lia.
  - destruct (Nat.eq_dec i (length (b_pins b))) as [->|Ne].
    + rewrite nth_middle, nth_put, Nat.eqb_refl by (rewrite U; lia). reflexivity.
    + rewrite app_nth1 by lia. rewrite nth_put by (rewrite U; lia). destruct (Nat.eqb _ _); [reflexivity|]. apply I. lia.
  - destruct (Nat.eq_dec i (length (b_pins b))) as [->|Ne].
    + rewrite nth_middle, nth_put, Nat.eqb_refl by (rewrite M; lia). reflexivity.
    + rewrite app_nth1 by lia. rewrite nth_put by (rewrite M; lia).
      destruct (I i) as (I1 & I2 & I3); [lia|].
      destruct (Nat.eqb_spec (Z.to_nat (pinToChannel (nth i (b_pins b) 0))) (Z.to_nat (pinToChannel p))) as [E|E]; [congruence|exact I3].
Qed.
Lemma wf_connects l : wf (connects l).
Proof.
  unfold connects. assert (W : wf b_init) by (repeat split; cbn in *; lia).
  revert W. generalize b_init. induction l as [|p l IH]; intros b W; [exact W|]. cbn. apply IH. now apply wf_connect.
Qed.
Theorem channels l i j : let b := connects l in
  (i < length (b_pins b))%nat -> (j < length (b_pins b))%nat ->
  let c := fun k => pinToChannel (nth k (b_pins b) 0) in
  0 <= c i < 8 /\ (c i = c j -> i = j) /\ nth (Z.to_nat (c i)) (b_map b) 0 = Z.of_nat i
  /\ nth (Z.to_nat (c i)) (b_used b) false = true.
Proof.
  intros b Hi Hj c. destruct (wf_connects l) as (_ & _ & _ & W). fold b in W.
  destruct (W i Hi) as (A1 & A2 & A3). destruct (W j Hj) as (B1 & B2 & B3). fold (c i) in *. fold (c j) in *.
  repeat split; auto; try apply channel_range. intros E. rewrite E in A3. lia.
Qed.
(** accepted if and only if it has a free channel and a queue is left *)
Theorem accepted l p : let b := connects l in
  snd (connect p b) <> None <->
  pinToChannel p < 8 /\ (forall i, (i < length (b_pins b))%nat -> pinToChannel (nth i (b_pins b) 0) <> pinToChannel p)
  /\ (length (b_pins b) < 6)%nat.
Proof.
  intros b.
  assert (U : forall c, (c < 8)%nat -> nth c (b_used b) false = true ->
     exists i, (i < length (b_pins b))%nat /\ Z.to_nat (pinToChannel (nth i (b_pins b) 0)) = c).
  { unfold b, connects. assert (X : forall c, (c < 8)%nat -> nth c (b_used b_init) false = true ->
      exists i, (i < length (b_pins b_init))%nat /\ Z.to_nat (pinToChannel (nth i (b_pins b_init) 0)) = c).
    { intros c Hc. do 8 (destruct c as [|c]; [cbn; discriminate|]). lia. }
    assert (W : length (b_used b_init) = 8%nat) by reflexivity.
    revert X W. generalize b_init. induction l as [|q l IH]; intros b0 X W; [exact X|]. cbn. apply IH; clear IH.
    - unfold connect. destruct (in_list q (b_pins b0)); [exact X|]. destruct (isValidStepPin q b0) eqn:V; [|exact X].
      cbn [negb]. destruct (Z.of_nat (length (b_pins b0)) >=? 6); [exact X|]. cbn [fst init b_used b_pins]. intros c Hc.
      rewrite isValid_and in V. apply andb_prop in V. destruct V as [V1 _]. apply Z.ltb_lt in V1. pose proof (channel_range q).
      rewrite nth_put by (rewrite W; lia). destruct (Nat.eqb_spec c (Z.to_nat (pinToChannel q))) as [->|E]; intros T.
      + exists (length (b_pins b0)). rewrite app_length, nth_middle. cbn. split; [lia|reflexivity].
      + destruct (X c Hc T) as (i & A & B). exists i. rewrite app_length, app_nth1 by auto. cbn. split; [lia|exact B].
    - unfold connect. destruct (in_list q (b_pins b0)); [exact W|]. destruct (isValidStepPin q b0); [|exact W].
      cbn [negb]. destruct (Z.of_nat (length (b_pins b0)) >=? 6); [exact W|]. cbn. now rewrite put_nth_length. }
  destruct (wf_connects l) as (W1 & W2 & W3 & W). fold b in W, W1, W3. pose proof (channel_range p) as R0.
  unfold connect. destruct (in_list p (b_pins b)) eqn:In.
  { split; [intros X; now contradiction X|]. intros (A & B & _). unfold in_list in In. apply existsb_exists in In.
    destruct In as (x & Hx & E). apply Z.eqb_eq in E. subst x. apply (In_nth _ _ 0) in Hx. destruct Hx as (i & Hi & Ei).
    exfalso. apply (B i Hi). now rewrite Ei. }
  destruct (isValidStepPin p b) eqn:V; cbn [negb].
  - rewrite isValid_and in V. apply andb_prop in V. destruct V as [V1 V2]. apply Z.ltb_lt in V1. apply negb_true_iff in V2.
    destruct (Z.geb_spec (Z.of_nat (length (b_pins b))) 6) as [G|G]; cbn [snd].
    + split; [intros X; now contradiction X|]. intros (_ & _ & C). lia.
    + split; [|discriminate]. intros _. repeat split; auto; [|lia]. intros i Hi E.
      destruct (W i Hi) as (_ & A & _). rewrite E in A. congruence.
  - split; [intros X; now contradiction X|]. intros (A & B & C). rewrite isValid_and in V.
    apply Z.ltb_lt in A. rewrite A in V. cbn in V. apply negb_false_iff in V. apply Z.ltb_lt in A.
    destruct (U (Z.to_nat (pinToChannel p))) as (i & Hi & E); [lia|exact V|]. exfalso. apply (B i Hi).
    pose proof (channel_range (nth i (b_pins b) 0)). lia.
Qed.

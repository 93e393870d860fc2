(** * RampDense: only the last call of a planned move returns no command *)
From Coq Require Import ZArith Bool List Lia ZifyBool.
From Verif Require Import Base RampCalc RampGen RampRun RampMove RampPlan.
Import ListNotations.
Open Scope Z_scope.
Ltac Zify.zify_post_hook ::= idtac.

Section WithArch.
Variable A : arch.

(** a command leaves the ramp generator active *)
Lemma next_active qe old g g1 n : rg_getNextCommand A qe old g = Some (g1, n) ->
  isRampGeneratorActive g = true -> c_ticks (n_cmd n) <> 0 ->
  isRampGeneratorActive (rg_afterCommandEnqueued n g1) = true.
Proof.
  intros H Ha. pose proof (getNext_active A _ _ _ _ _ H) as Ha1. rewrite Ha in Ha1. revert H.
  unfold rg_getNextCommand. cbv zeta. destruct (ro_force_immediate _).
  { intros E. injection E as _ <-. cbn. congruence. }
  match goal with |- context [getNextCommand_ A ?a ?b ?c ?d] => destruct (getNextCommand_ A a b c d) as [n0|] eqn:E end; [|discriminate].
  intros H Hn. injection H as <- <-. cbn [with_ro rg_rw] in Ha1. unfold rg_afterCommandEnqueued. unfold isRampGeneratorActive in *.
  cbn [with_rw with_ro rg_rw] in *. revert E Hn. unfold getNextCommand_. unfold gnc_pause. destruct (_ >? 0).
  { intros E _. injection E as <-. exact Ha1. }
  destruct (gnc_delta _ _) as [[need_up R]|]; [|discriminate].
  destruct ((R =? 0) && _); [intros E; injection E as <-; cbn; congruence|].
  destruct (gnc_planning _ _) as [orig|]; [|discriminate].
  destruct (gnc_choose _ _ _ _ _ _) as [[s1 R1] pl1].
  destruct (R1 =? 0); [intros E; injection E as <-; cbn; congruence|].
  destruct (gnc_new_ticks _ _ _ _ _ _ _ _) as [d1 pl2].
  destruct (gnc_min_cmd _ _ _ _ _ _) as [[[s2 d2] pl3]|]; [|discriminate].
  destruct (gnc_split _ _ _) as [[st nx] pz].
  destruct (gnc_prus _ _ _ _ _ _) as [P' nx'].
  intros E _. injection E as <-. cbn [n_rw rw_state]. clear.
  destruct s2; destruct (if _ =? 0 then need_up else _); reflexivity.
Qed.
Lemma plan_short : forall k g p u cs, plan A k g p u cs -> (k <= length cs)%nat -> cs = [] /\ isRampGeneratorActive g = false.
Proof.
  induction 1 as [k g p u Ha|k g p u cs g1 n old Ha Hn H0 H IH|k g p u c cs g1 n Ha Hn Hn2 Hc H0 H IH]; intros Hk.
  - auto.
  - destruct IH as [-> _]; [lia|]. cbn in Hk. lia.
  - exfalso. cbn [length] in Hk. destruct IH as [_ I1]; [lia|].
    subst c. rewrite (next_active _ _ _ _ _ (Hn n true) Ha H0) in I1. discriminate.
Qed.
(** the call without a command ends the ramp *)
Lemma plan_last k g p u cs g1 n old pin : plan A k g p u cs -> (k <= S (length cs))%nat -> isRampGeneratorActive g = true ->
  rg_getNextCommand A (mkQueueEnd p u pin) old g = Some (g1, n) -> c_ticks (n_cmd n) = 0 ->
  cs = [] /\ isRampGeneratorActive (rg_afterCommandEnqueued n g1) = false.
Proof.
  intros H Hk Ha Hg H0. destruct (plan_end A _ _ _ _ _ _ _ _ _ H Ha Hg H0) as (k' & -> & Hp).
  apply (plan_short _ _ _ _ _ Hp). lia.
Qed.
End WithArch.

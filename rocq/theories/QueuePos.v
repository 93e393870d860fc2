(** * QueuePos: reconstruction of 32 bit positions from 16 bit ones *)
From Coq Require Import ZArith Znumtheory Bool List Lia ZifyBool.
From Verif Require Import Base Queue QueueFacts.
Import ListNotations.
Open Scope Z_scope.
Ltac Zify.zify_post_hook ::= idtac.

Lemma lor_shift16 x y : 0 <= y < 65536 -> Z.lor (Z.shiftl x 16) y = x * 65536 + y.
Proof.
  intros Hy.
  assert (H1 : Z.lor (Z.shiftl x 16) y / 65536 = x).
  { change 65536 with (2 ^ 16). rewrite <- Z.shiftr_div_pow2 by lia.
    rewrite Z.shiftr_lor, Z.shiftr_shiftl_l by lia. change (16 - 16) with 0. rewrite Z.shiftl_0_r.
    rewrite (Z.shiftr_div_pow2 y) by lia. change (2 ^ 16) with 65536.
    rewrite Z.div_small by lia. apply Z.lor_0_r. }
  assert (H2 : Z.lor (Z.shiftl x 16) y mod 65536 = y).
  { change 65536 with (2 ^ 16). rewrite <- Z.land_ones by lia.
    rewrite Z.land_lor_distr_l.
    rewrite (Z.land_ones y) by lia. change (2 ^ 16) with 65536. rewrite (Z.mod_small y) by lia.
    rewrite Z.land_ones by lia. rewrite Z.shiftl_mul_pow2 by lia. rewrite Z.mod_mul by lia.
    apply Z.lor_0_l. }
  pose proof (Z.div_mod (Z.lor (Z.shiftl x 16) y) 65536). lia.
Qed.
Lemma land_hi x : 0 <= x < 4294967296 -> Z.land x 4294901760 = Z.shiftl (x / 65536) 16.
Proof.
  intros Hx. change 4294901760 with (Z.shiftl (Z.ones 16) 16).
  apply Z.bits_inj'. intros n Hn. rewrite Z.land_spec.
  rewrite !Z.shiftl_spec by lia.
  destruct (Z_lt_le_dec n 16).
  - rewrite !(Z.testbit_neg_r _ (n - 16)) by lia. apply andb_false_r.
  - change 65536 with (2 ^ 16). rewrite <- (Z.shiftr_div_pow2 x 16) by lia. rewrite Z.shiftr_spec by lia.
    replace (n - 16 + 16) with n by lia.
    destruct (Z_lt_le_dec n 32).
    + rewrite Z.ones_spec_low by lia. apply andb_true_r.
    + rewrite Z.ones_spec_high by lia. rewrite andb_false_r. symmetry.
      destruct (Z.eq_dec x 0) as [->|]; [apply Z.testbit_0_l|].
      apply Z.bits_above_log2; [lia|].
      assert (Z.log2 x < 32); [|lia]. apply Z.log2_lt_pow2; [lia|]. change (2 ^ 32) with 4294967296. lia.
Qed.
Lemma lift_lor x y : 0 <= x < 4294967296 -> 0 <= y < 65536 ->
  Z.lor (Z.land x 4294901760) y = x / 65536 * 65536 + y.
Proof. intros. rewrite land_hi by assumption. now apply lor_shift16. Qed.

Lemma small_cases4 b : 0 <= b < 4 -> b = 0 \/ b = 1 \/ b = 2 \/ b = 3.
Proof. lia. Qed.
Lemma transition_eq pos p16 : 0 <= p16 < 65536 ->
  transition pos p16 = 4 * (pos mod 65536 / 16384) + p16 / 16384.
Proof.
  intros Hp. unfold transition, u16.
  assert (Hx : 0 <= pos mod 65536 < 65536) by (apply Z.mod_pos_bound; lia).
  set (x := pos mod 65536) in *.
  rewrite !Z.shiftr_div_pow2 by lia. change (2 ^ 12) with 4096. change (2 ^ 14) with 16384.
  replace (x / 16384) with (x / 4096 / 4) by (rewrite Z.div_div by lia; reflexivity).
  assert (Hy : 0 <= x / 4096 < 16).
  { split; [apply Z.div_pos; lia|apply Z.div_lt_upper_bound; lia]. }
  assert (Hb : 0 <= p16 / 16384 < 4).
  { split; [apply Z.div_pos; lia|apply Z.div_lt_upper_bound; lia]. }
  set (y := x / 4096) in *. set (b := p16 / 16384) in *. clearbody y b.
  assert (Hy' : y = 0 \/ y = 1 \/ y = 2 \/ y = 3 \/ y = 4 \/ y = 5 \/ y = 6 \/ y = 7 \/
     y = 8 \/ y = 9 \/ y = 10 \/ y = 11 \/ y = 12 \/ y = 13 \/ y = 14 \/ y = 15) by lia.
  pose proof (small_cases4 b Hb) as Hb'.
  repeat (destruct Hy' as [-> | Hy']); try subst y;
  repeat (destruct Hb' as [-> | Hb']); try subst b; reflexivity.
Qed.

Lemma lift16_spec pos d : 0 <= pos < 4294967296 -> -16384 < d < 16384 ->
  lift16 pos (u16 (pos + d)) = u32 (pos + d).
Proof.
  intros Hp Hd. unfold lift16, u16.
  assert (Hx : 0 <= (pos + d) mod 65536 < 65536) by (apply Z.mod_pos_bound; lia).
  rewrite transition_eq by assumption.
  rewrite lift_lor; [|repeat match goal with |- context [if ?b then _ else _] => destruct b end; unfold u32; try assumption; apply Z.mod_pos_bound; lia|assumption].
  unfold u32.
  set (m := (pos + d) mod 65536) in *.
  set (a := pos mod 65536 / 16384). set (b := m / 16384).
  assert (Ha : 0 <= pos mod 65536 - 16384 * a < 16384 /\ 0 <= a < 4).
  { assert (0 <= pos mod 65536 < 65536) by (apply Z.mod_pos_bound; lia).
    pose proof (Z.div_mod (pos mod 65536) 16384 ltac:(lia)).
    pose proof (Z.mod_pos_bound (pos mod 65536) 16384 ltac:(lia)). fold a in H0.
    split; [lia|]. unfold a. split; [apply Z.div_pos; lia|apply Z.div_lt_upper_bound; lia]. }
  assert (Hb : 0 <= m - 16384 * b < 16384 /\ 0 <= b < 4).
  { pose proof (Z.div_mod m 16384 ltac:(lia)).
    pose proof (Z.mod_pos_bound m 16384 ltac:(lia)). fold b in H.
    split; [lia|]. unfold b. split; [apply Z.div_pos; lia|apply Z.div_lt_upper_bound; lia]. }
  pose proof (Z.div_mod pos 65536 ltac:(lia)) as Hpd.
  pose proof (Z.div_mod (pos + d) 65536 ltac:(lia)) as Hpd2. fold m in Hpd2.
  set (q2 := (pos + d) / 65536) in *. set (q1 := pos / 65536) in *.
  set (r := pos mod 65536) in *.
  assert (Hr : 0 <= r < 65536) by (apply Z.mod_pos_bound; lia).
  assert (Hq1 : 0 <= q1 < 65536) by lia.
  clearbody a b m q1 q2 r.
  pose proof (small_cases4 a ltac:(lia)) as Ca. pose proof (small_cases4 b ltac:(lia)) as Cb.
  Local Ltac Zify.zify_post_hook ::= Z.div_mod_to_equations.
  destruct Ca as [-> | [-> | [-> | ->]]]; destruct Cb as [-> | [-> | [-> | ->]]];
    repeat match goal with |- context [?x =? ?y] =>
      let v := eval vm_compute in (x =? y) in change (x =? y) with v end;
    cbn [orb]; cbv iota; try (exfalso; lia); lia.
Qed.

(** * Pcnt: the free pulse counter of the ESP32
    Model of attachToPulseCounter(), clearPulseCounter() and readPulseCounter():
    src/FastAccelStepper_idf4_esp32_pcnt.cpp:22-91 (ESP-IDF 4) and
    src/FastAccelStepper_idf5_esp32_pcnt.cpp:21-137 (ESP-IDF 5).

    Simplifications:
    - A unit of the hardware counts the rising edges of one pin, up or down as the level of another
      pin says. At one of its limits it starts from zero again. This is what
      src/FastAccelStepper.h:768-777 says; it also says that the limits 0 and 0 mean none.
    - The counter of ESP-IDF 4 is set up by a call whose result the source ignores
      (pcnt_unit_config, idf4 line 51); it is taken to succeed. Hence the direction pin is a pin of
      the MCU here (or there is none).
    - Pins are connected to one stepper each (C42). *)
From Coq Require Import ZArith Bool List Lia.
From Verif Require Import Base Queue.
Import ListNotations.
Open Scope Z_scope.
Ltac Zify.zify_post_hook ::= idtac.

(** ** A unit of the hardware *)
Inductive mode := Keep | Reverse.
(** [n_edge]: the pin whose rising edges are counted. [n_ctrl]: the pin that decides on up or down *)
Record unit_ := mkUnit {
  n_cnt : Z; n_low : Z; n_high : Z; n_edge : Z; n_ctrl : option Z; n_hmode : mode; n_lmode : mode
}.
Definition with_cnt (c : Z) (u : unit_) : unit_ :=
  mkUnit c (n_low u) (n_high u) (n_edge u) (n_ctrl u) (n_hmode u) (n_lmode u).
(** the mode in use; no control pin: both modes are Keep *)
Definition mode_now (lv : pins) (u : unit_) : mode :=
  match n_ctrl u with
  | Some p => if lv p then n_hmode u else n_lmode u
  | None => n_hmode u
  end.
(** a rising edge *)
Definition advance (d : Z) (u : unit_) : unit_ :=
  let c := n_cnt u + d in
  with_cnt (if (c =? n_high u) || (c =? n_low u) then 0 else i16 c) u.
Definition edge (lv : pins) (u : unit_) : unit_ :=
  advance (match mode_now lv u with Keep => 1 | Reverse => -1 end) u.

(** ** ESP-IDF 4 *)
(** What a stepper knows: its step pin, direction pin and dirHighCountsUp *)
Record pconf := mkPconf { f_step : Z; f_dir : Z; f_hcu : bool }.
(** idf4 lines 30-57 and 61-76: the unit is set up and its counter is cleared *)
Definition configured (low high : Z) (f : pconf) : unit_ :=
  if f_dir f =? PIN_UNDEFINED then mkUnit 0 low high (f_step f) None Keep Keep
  else if f_hcu f then mkUnit 0 low high (f_step f) (Some (f_dir f)) Keep Reverse
  else mkUnit 0 low high (f_step f) (Some (f_dir f)) Reverse Keep.

(** Several steppers; [w_att i]: _attached_pulse_cnt_unit of stepper [i], -1 means none
    (src/FastAccelStepper.cpp:525). [w_conf i]: its pins *)
Record world := mkWorld { w_unit : Z -> unit_; w_att : Z -> Z; w_conf : Z -> pconf }.
Inductive pevent :=
| PAttach (i n low high : Z)        (* stepper i: attachToPulseCounter(n, low, high) *)
| PClear (i : Z)                    (* stepper i: clearPulseCounter() *)
| PSetDir (i pin : Z) (hcu : bool)  (* stepper i: setDirectionPin() *)
| PEdge (p : Z) (lv : pins).        (* rising edge at pin p, with these levels *)

Section WithUnits.
(** SUPPORT_ESP32_PULSE_COUNTER: 8 on the ESP32, 4 on S2 and S3
    (src/fas_arch/common_esp32_idf4.h:13, 28, 44) *)
Variable UNITS : Z.

(** idf4 lines 22-79; the result is the new state and the return value *)
Definition attach4 (i n low high : Z) (w : world) : world * bool :=
  if n >=? UNITS then (w, false)
  else (mkWorld (upd (w_unit w) n (configured low high (w_conf w i))) (upd (w_att w) i n) (w_conf w), true).
(** idf4 lines 80-91 *)
Definition clear4 (i : Z) (w : world) : world :=
  if w_att w i >=? 0
  then mkWorld (upd (w_unit w) (w_att w i) (with_cnt 0 (w_unit w (w_att w i)))) (w_att w) (w_conf w)
  else w.
Definition read4 (i : Z) (w : world) : Z :=
  if w_att w i >=? 0 then i16 (n_cnt (w_unit w (w_att w i))) else 0.
Definition pstep (e : pevent) (w : world) : world :=
  match e with
  | PAttach i n low high => fst (attach4 i n low high w)
  | PClear i => clear4 i w
  | PSetDir i pin hcu =>
    mkWorld (w_unit w) (w_att w) (upd (w_conf w) i (mkPconf (f_step (w_conf w i)) pin hcu))
  | PEdge p lv => mkWorld (fun n => if n_edge (w_unit w n) =? p then edge lv (w_unit w n) else w_unit w n)
                    (w_att w) (w_conf w)
  end.
Definition prun (l : list pevent) (w : world) : world := fold_left (fun w e => pstep e w) l w.
End WithUnits.

(** ** ESP-IDF 5: the driver of the system gives the units away
    [rc]: the results of the six calls of lines 58-97 (true = ESP_OK): new channel, edge action,
    level action, enable, clear, start. [t_free]: units that have not been given away.
    [t_att]: the unit of the stepper. pcnt_new_unit() refuses if no unit is left, and the limits
    unless low < 0 < high (ESP-IDF, pulse_cnt.c). *)
Record rcs := mkRcs { r_chan : bool; r_edge : bool; r_level : bool; r_ena : bool; r_clr : bool; r_run : bool }.
Record sys5 := mkSys5 { t_free : nat; t_att : option unit_ }.
Definition new_unit_ok (low high : Z) (s : sys5) : bool :=
  (low <? 0) && (high >? 0) && negb (Nat.eqb (t_free s) 0).
(** src/FastAccelStepper_idf5_esp32_pcnt.cpp:21-127 *)
Definition attach5 (low high : Z) (f : pconf) (rc : rcs) (s : sys5) : sys5 * bool :=
  if negb (new_unit_ok low high s) then (s, false)
  else if negb (r_chan rc) then (s, false)                       (* pcnt_del_unit() *)
  else if negb (r_edge rc && r_level rc && r_ena rc && r_clr rc && r_run rc)
  then (mkSys5 (pred (t_free s)) (t_att s), false)               (* the unit is not given back *)
  else (mkSys5 (pred (t_free s)) (Some (configured low high f)), true).
(** lines 129-140 *)
Definition read5 (s : sys5) : Z := match t_att s with Some u => i16 (n_cnt u) | None => 0 end.
Definition edge5 (lv : pins) (s : sys5) : sys5 := mkSys5 (t_free s) (option_map (edge lv) (t_att s)).

(** ** What the counter is to show *)
(** the steps in [l] (edges with levels), from the configuration *)
Definition dir_of (f : pconf) (lv : pins) : Z :=
  if f_dir f =? PIN_UNDEFINED then 1 else if Bool.eqb (lv (f_dir f)) (f_hcu f) then 1 else -1.
Fixpoint net (f : pconf) (l : list pevent) : Z :=
  match l with
  | [] => 0
  | PEdge p lv :: l => (if p =? f_step f then dir_of f lv else 0) + net f l
  | _ :: l => net f l
  end.
(** src/FastAccelStepper.h:779-784 *)
Definition angle (N r : Z) : Z := if r <? 0 then r + N else r.

(** [e] does not touch unit [n], on which stepper [i] is counting *)
Definition leaves (n i : Z) (e : pevent) (w : world) : Prop :=
  match e with
  | PAttach j m _ _ => m <> n /\ j <> i
  | PClear j => w_att w j <> n
  | _ => True
  end.
Fixpoint all_leave (U n i : Z) (l : list pevent) (w : world) : Prop :=
  match l with [] => True | e :: l => leaves n i e w /\ all_leave U n i l (pstep U e w) end.

(** ** Facts *)
Lemma edge_conf f c low high lv :
  let u := with_cnt c (configured low high f) in
  edge lv u = with_cnt (let c' := c + dir_of f lv in if (c' =? high) || (c' =? low) then 0 else i16 c')
    (configured low high f).
Proof.
  unfold configured, dir_of, edge, advance, mode_now.
  destruct (f_dir f =? PIN_UNDEFINED); [reflexivity|].
  destruct (f_hcu f); cbn [with_cnt n_cnt n_low n_high n_edge n_ctrl n_hmode n_lmode];
    destruct (lv (f_dir f)); reflexivity.
Qed.
Lemma dir_of_one f lv : dir_of f lv = 1 \/ dir_of f lv = -1.
Proof. unfold dir_of. destruct (_ =? _); auto. destruct (Bool.eqb _ _); auto. Qed.

(** the invariant of the count under a run, for a relation between count and steps *)
Lemma run_rel (R : Z -> Z -> Prop) U n i low high f :
  0 <= n ->
  (forall c d k, d = 1 \/ d = -1 -> R c k ->
     R (if (c + d =? high) || (c + d =? low) then 0 else i16 (c + d)) (k + d)) ->
  forall l w c k, w_att w i = n -> w_unit w n = with_cnt c (configured low high f) -> R c k ->
  all_leave U n i l w ->
  let w' := prun U l w in
  exists c', w_att w' i = n /\ w_unit w' n = with_cnt c' (configured low high f) /\ R c' (k + net f l).
Proof.
  intros Hn HR. induction l as [|e l IH]; intros w c k HA HU HC HL; cbn [prun fold_left].
  { exists c. cbn [net]. rewrite Z.add_0_r. auto. }
  cbn [all_leave] in HL. destruct HL as [L0 L]. fold (prun U l (pstep U e w)).
  destruct e as [j m lo hi|j|j pin hcu|p lv]; cbn [leaves net] in *.
  - apply (IH _ c k); auto; cbn [pstep attach4] in *; unfold attach4; destruct (m >=? U); cbn [fst w_att w_unit]; auto;
      unfold upd.
    + destruct (Z.eqb_spec i j); [lia|auto].
    + destruct (Z.eqb_spec n m); [lia|auto].
  - apply (IH _ c k); auto; cbn [pstep] in *; unfold clear4; destruct (_ >=? 0); cbn [w_att w_unit]; auto.
    unfold upd. destruct (Z.eqb_spec n (w_att w j)); [lia|auto].
  - apply (IH _ c k); auto.
  - assert (ES : n_edge (w_unit w n) = f_step f).
    { clear - HU. rewrite HU. unfold configured. destruct (f_dir f =? PIN_UNDEFINED); [reflexivity|]. destruct (f_hcu f); reflexivity. }
    destruct (Z.eqb_spec p (f_step f)) as [E|E].
    + rewrite Z.add_assoc. cbn [pstep] in *.
      eapply IH; [exact HA| |apply HR; [apply dir_of_one|exact HC]|exact L].
      cbn [pstep w_unit]. rewrite ES, E, Z.eqb_refl, HU, edge_conf. reflexivity.
    + cbn [pstep] in *. rewrite Z.add_0_l. apply (IH _ c k); auto.
      cbn [w_unit]. rewrite ES. destruct (Z.eqb_spec (f_step f) p); [congruence|auto].
Qed.

(** symmetric limits *)
Definition turns (N c k : Z) : Prop := - N < c < N /\ exists q, k = c + q * N.
Lemma turns_step N c d k : 0 < N <= 32767 -> d = 1 \/ d = -1 -> turns N c k ->
  turns N (if (c + d =? N) || (c + d =? - N) then 0 else i16 (c + d)) (k + d).
Proof.
  intros HN HD (B & q & E). unfold turns.
  destruct (Z.eqb_spec (c + d) N) as [H|H]; cbn [orb].
  { split; [lia|]. exists (q + 1). lia. }
  destruct (Z.eqb_spec (c + d) (- N)) as [H'|H'].
  { split; [lia|]. exists (q - 1). lia. }
  rewrite i16_id by lia. split; [lia|]. exists q. lia.
Qed.
Lemma turns_angle N c k : 0 < N -> turns N c k -> angle N c = k mod N.
Proof.
  intros HN (B & q & E). unfold angle. destruct (Z.ltb_spec c 0).
  - apply Z.mod_unique_pos with (q - 1); lia.
  - apply Z.mod_unique_pos with q; lia.
Qed.
Lemma i16_i16_add a d : i16 (i16 a + d) = i16 (a + d).
Proof.
  unfold i16. replace ((a + 32768) mod 65536 - 32768 + d + 32768) with ((a + 32768) mod 65536 + d) by lia.
  rewrite Zplus_mod_idemp_l. f_equal. f_equal. lia.
Qed.
Lemma int16_step c d k : c = i16 k -> (if (c + d =? 0) || (c + d =? 0) then 0 else i16 (c + d)) = i16 (k + d).
Proof.
  intros ->. rewrite <- (i16_i16_add k d). destruct (Z.eqb_spec (i16 k + d) 0) as [E|E]; cbn [orb]; [|reflexivity].
  rewrite E. reflexivity.
Qed.

Section Theorems.
Variable U : Z.
Lemma attached_first i n low high w : 0 <= n < U ->
  let w1 := fst (attach4 U i n low high w) in
  w_att w1 i = n /\ w_unit w1 n = with_cnt 0 (configured low high (w_conf w i)).
Proof.
  intros H. unfold attach4. destruct (Z.geb_spec n U); [lia|]. cbn [fst w_att w_unit].
  unfold upd. rewrite !Z.eqb_refl. split; [reflexivity|].
  unfold configured. destruct (_ =? _); [reflexivity|]. destruct (f_hcu _); reflexivity.
Qed.

Lemma angle_right i n N l w : 0 <= n < U -> 0 < N <= 32767 ->
  let w1 := fst (attach4 U i n (- N) N w) in
  all_leave U n i l w1 ->
  let r := read4 i (prun U l w1) in
  - N < r < N /\ angle N r = net (w_conf w i) l mod N.
Proof.
  intros Hn HN w1 HL r. destruct (attached_first i n (- N) N w Hn) as [A1 A2]. fold w1 in A1, A2.
  destruct (run_rel (turns N) U n i (- N) N (w_conf w i) (proj1 Hn)
    (fun c d k => turns_step N c d k HN) l w1 0 0 A1 A2) as (c & B1 & B2 & B3); auto.
  { split; [lia|]. exists 0. lia. }
  assert (E : r = c).
  { unfold r, read4. rewrite B1. destruct (Z.geb_spec n 0); [|lia]. rewrite B2. cbn [with_cnt n_cnt].
    apply i16_id. destruct B3. lia. }
  rewrite E. split; [apply B3|]. apply turns_angle; [lia|exact B3].
Qed.
Lemma clear_right i n N l1 l2 w : 0 <= n < U -> 0 < N <= 32767 ->
  let w1 := fst (attach4 U i n (- N) N w) in
  all_leave U n i l1 w1 ->
  let w2 := clear4 i (prun U l1 w1) in
  all_leave U n i l2 w2 ->
  read4 i w2 = 0 /\ angle N (read4 i (prun U l2 w2)) = net (w_conf w i) l2 mod N.
Proof.
  intros Hn HN w1 HL w2 HL2. destruct (attached_first i n (- N) N w Hn) as [A1 A2]. fold w1 in A1, A2.
  destruct (run_rel (turns N) U n i (- N) N (w_conf w i) (proj1 Hn)
    (fun c d k => turns_step N c d k HN) l1 w1 0 0 A1 A2) as (c & B1 & B2 & B3); auto.
  { split; [lia|]. exists 0. lia. }
  assert (C1 : w_att w2 i = n).
  { unfold w2, clear4. destruct (_ >=? 0); exact B1. }
  assert (C2 : w_unit w2 n = with_cnt 0 (configured (- N) N (w_conf w i))).
  { unfold w2, clear4. rewrite B1. destruct (Z.geb_spec n 0); [|lia]. cbn [w_unit]. unfold upd.
    rewrite Z.eqb_refl, B2. reflexivity. }
  destruct (run_rel (turns N) U n i (- N) N (w_conf w i) (proj1 Hn)
    (fun c d k => turns_step N c d k HN) l2 w2 0 0 C1 C2) as (c' & D1 & D2 & D3); auto.
  { split; [lia|]. exists 0. lia. }
  split.
  - unfold read4. rewrite C1. destruct (Z.geb_spec n 0); [|lia]. rewrite C2. reflexivity.
  - unfold read4. rewrite D1. destruct (Z.geb_spec n 0); [|lia]. rewrite D2. cbn [with_cnt n_cnt].
    rewrite i16_id by (destruct D3; lia). apply turns_angle; [lia|exact D3].
Qed.
Lemma int16_right i n l w : 0 <= n < U ->
  let w1 := fst (attach4 U i n 0 0 w) in
  all_leave U n i l w1 -> read4 i (prun U l w1) = i16 (net (w_conf w i) l).
Proof.
  intros Hn w1 HL. destruct (attached_first i n 0 0 w Hn) as [A1 A2]. fold w1 in A1, A2.
  destruct (run_rel (fun c k => c = i16 k) U n i 0 0 (w_conf w i) (proj1 Hn)
    (fun c d k _ => int16_step c d k) l w1 0 0 A1 A2) as (c & B1 & B2 & B3); auto.
  unfold read4. rewrite B1. destruct (Z.geb_spec n 0); [|lia]. rewrite B2. cbn [with_cnt n_cnt].
  rewrite B3. cbn [Z.add]. apply i16_id. apply i16_range.
Qed.
(** any limits around 0: exact until one of them is reached *)
Fixpoint within (low high : Z) (f : pconf) (k : Z) (l : list pevent) : Prop :=
  match l with
  | [] => True
  | PEdge p lv :: l =>
    let k := k + (if p =? f_step f then dir_of f lv else 0) in low < k < high /\ within low high f k l
  | _ :: l => within low high f k l
  end.
Lemma exact_right i n low high l w : 0 <= n < U -> -32768 <= low < 0 -> 0 < high <= 32767 ->
  let w1 := fst (attach4 U i n low high w) in
  all_leave U n i l w1 -> within low high (w_conf w i) 0 l ->
  read4 i (prun U l w1) = net (w_conf w i) l.
Proof.
  intros Hn HL HH w1 HV HW. destruct (attached_first i n low high w Hn) as [A1 A2]. fold w1 in A1, A2.
  set (f := w_conf w i) in *.
  assert (G : forall l w c, w_att w i = n -> w_unit w n = with_cnt c (configured low high f) ->
    low < c < high -> all_leave U n i l w -> within low high f c l ->
    w_att (prun U l w) i = n /\ w_unit (prun U l w) n = with_cnt (c + net f l) (configured low high f)
    /\ low < c + net f l < high).
  { clear - HL HH Hn. clearbody f. clear w. induction l as [|e l IH]; intros w c HA HU HC HV HW.
    { cbn [prun fold_left net]. rewrite Z.add_0_r. auto. }
    cbn [all_leave] in HV. destruct HV as [L0 L]. cbn [prun fold_left]. fold (prun U l (pstep U e w)).
    destruct e as [j m lo hi|j|j pin hcu|p lv]; cbn [leaves net within] in *.
    - apply IH; auto; cbn [pstep] in *; unfold attach4; destruct (m >=? U); cbn [fst w_att w_unit]; auto; unfold upd.
      + destruct (Z.eqb_spec i j); [lia|auto].
      + destruct (Z.eqb_spec n m); [lia|auto].
    - apply IH; auto; cbn [pstep] in *; unfold clear4; destruct (_ >=? 0); cbn [w_att w_unit]; auto.
      unfold upd. destruct (Z.eqb_spec n (w_att w j)); [lia|auto].
    - apply IH; auto.
    - assert (ES : n_edge (w_unit w n) = f_step f).
      { clear - HU. rewrite HU. unfold configured. destruct (f_dir f =? PIN_UNDEFINED); [reflexivity|]. destruct (f_hcu f); reflexivity. }
      destruct HW as [W0 W]. destruct (Z.eqb_spec p (f_step f)) as [E|E].
      + rewrite Z.add_assoc. apply IH; auto. cbn [pstep w_unit]. rewrite ES, E, Z.eqb_refl, HU, edge_conf.
        cbv zeta. destruct (Z.eqb_spec (c + dir_of f lv) high); [lia|].
        destruct (Z.eqb_spec (c + dir_of f lv) low); [lia|]. cbn [orb]. now rewrite i16_id by lia.
      + rewrite Z.add_0_l. rewrite Z.add_0_r in *. apply IH; auto.
        cbn [pstep w_unit]. rewrite ES. destruct (Z.eqb_spec (f_step f) p); [congruence|auto]. }
  destruct (G l w1 0 A1 A2) as (B1 & B2 & B3); auto; [lia|].
  unfold read4. rewrite B1. destruct (Z.geb_spec n 0); [|lia]. rewrite B2. cbn [with_cnt n_cnt].
  rewrite i16_id by lia. lia.
Qed.
End Theorems.

(** ** On the ESP-IDF 5 *)
Definition edges5 (l : list pins) (s : sys5) : sys5 := fold_left (fun s lv => edge5 lv s) l s.
Definition net5 (f : pconf) (l : list pins) : Z := fold_right (fun lv z => dir_of f lv + z) 0 l.
Lemma angle5 N f l rc s : 0 < N <= 32767 -> snd (attach5 (- N) N f rc s) = true ->
  let r := read5 (edges5 l (fst (attach5 (- N) N f rc s))) in
  - N < r < N /\ angle N r = net5 f l mod N.
Proof.
  intros HN HS r.
  assert (G : forall l c k, turns N c k ->
    forall n, exists c', edges5 l (mkSys5 n (Some (with_cnt c (configured (- N) N f))))
      = mkSys5 n (Some (with_cnt c' (configured (- N) N f))) /\ turns N c' (k + net5 f l)).
  { clear - HN. induction l as [|lv l IH]; intros c k HT n; cbn [edges5 fold_left net5 fold_right].
    { exists c. now rewrite Z.add_0_r. }
    fold (net5 f l).
    assert (E1 : edge5 lv (mkSys5 n (Some (with_cnt c (configured (- N) N f))))
      = mkSys5 n (Some (edge lv (with_cnt c (configured (- N) N f))))) by reflexivity.
    rewrite edge_conf in E1. cbv zeta in E1. rewrite E1.
    rewrite Z.add_assoc. unfold edges5 in IH. apply IH. apply turns_step; auto. apply dir_of_one. }
  unfold attach5 in *. destruct (negb (new_unit_ok _ _ _)); [discriminate|].
  destruct (negb (r_chan rc)); [discriminate|]. destruct (negb _) eqn:E2; [discriminate|].
  cbn [fst] in *.
  assert (T0 : turns N 0 0) by (split; [lia|exists 0; lia]).
  destruct (G l 0 0 T0 (pred (t_free s))) as (c & Ec & T).
  assert (EC : with_cnt 0 (configured (- N) N f) = configured (- N) N f).
  { unfold configured. destruct (_ =? _); [reflexivity|]. destruct (f_hcu f); reflexivity. }
  rewrite EC in Ec. unfold r. rewrite Ec. unfold read5. cbn [t_att with_cnt n_cnt].
  destruct T as [T1 T2]. rewrite i16_id by lia. split; [lia|]. apply turns_angle; [lia|]. split; auto.
Qed.

(** * PropWait: property C119 (how long a call for a packet number waits). *)
From Verif Require Import Base SeqModel SeqProofs TimeModel SpecTime TimeProofs.
From Verif Require PropTime.
Local Notation whole := PropTime.whole.

(** ** Specification *)
(** The second of the day clocks of the zone show at the instant [t]. *)
Definition day_second (zone : Z -> Z) (t : Z) : Z := (whole t + zone (whole t)) mod 86400.

Opaque before_year day_number civil_of.
Lemma passed_second zone t : passedSeconds zone t = day_second zone t.
Proof.
  unfold passedSeconds, day_second. destruct (civil_ok zone t) as (_ & B1 & B2 & B3 & E). change (second_of t) with (whole t) in E.
  set (c := civil_of zone t) in *. clearbody c. unfold instant in E. set (e := zone (whole t)) in *. set (a := day_number (cv_year c) (cv_month c) (cv_day c)) in *. set (b := day_number 1970 1 1) in *. clearbody a b e.
  apply (Z.mod_unique_pos _ _ (a - b)); lia.
Qed.
(** Calls of one generator, one after the other, with the instants at which it reads the clock;
    the numbers given out, the last call may still be waiting. *)
Definition calls (zone : Z -> Z) (n : nat) (s : sf32) (ts : list Z) : list Z := run_clk s32_next n s (map (passedSeconds zone) ts).
Definition sound (s : sf32) : Prop := 0 <= s32_seq s < 512 /\ 0 <= s32_sec s < 86400.

Lemma spin_none last clk : spin last clk = None <-> Forall (fun x => x <= last) clk.
Proof.
  induction clk as [|x clk IH]; cbn [spin]; [split; auto|]. destruct (x <=? last) eqn:E.
  - rewrite IH. rewrite Forall_cons_iff. split; [intros H; split; [lia|exact H]|intros [_ H]; exact H].
  - split; [discriminate|]. rewrite Forall_cons_iff. lia.
Qed.
Lemma second_bound zone t : 0 <= day_second zone t < 86400.
Proof. apply Z.mod_pos_bound. lia. Qed.
Lemma map_passed zone ts : map (passedSeconds zone) ts = map (day_second zone) ts.
Proof. apply map_ext. intros t. apply passed_second. Qed.

(** ** C119 *)
(** Exactly when a call does not return while the clock is read at the given instants: it is the
    513th in its second, and no reading shows a later second of the day. *)
Theorem C119_exact : forall zone s t0 ts, sound s ->
  (s32_next s (map (passedSeconds zone) (t0 :: ts)) = None <->
   s32_seq s = 511 /\ s32_sec s = day_second zone t0 /\ forall u, In u ts -> day_second zone u <= day_second zone t0) /\
  (~ (s32_seq s = 511 /\ s32_sec s = day_second zone t0) ->
   exists s' v, s32_next s (map (passedSeconds zone) (t0 :: ts)) = Some (s', v, map (passedSeconds zone) ts)).
Proof.
  intros zone s t0 ts [B1 B2]. rewrite !map_passed. cbn [map]. unfold s32_next. rewrite land_511.
  destruct (s32_sec s =? day_second zone t0) eqn:E.
  - apply Z.eqb_eq in E. destruct ((s32_seq s + 1) mod 512 =? 0) eqn:F.
    + apply Z.eqb_eq in F. assert (Q : s32_seq s = 511) by (pose proof (Z.div_mod (s32_seq s + 1) 512 ltac:(lia)); lia).
      split.
      * split.
        -- intros H. split; [exact Q|]. split; [exact E|]. destruct (spin (s32_sec s) (map (day_second zone) ts)) as [[n r]|] eqn:S1; [discriminate|].
           apply spin_none in S1. rewrite Forall_forall in S1. intros u I. rewrite <- E. apply S1. apply in_map. exact I.
        -- intros (_ & _ & H). assert (S1 : spin (s32_sec s) (map (day_second zone) ts) = None).
           { apply spin_none. apply Forall_forall. intros x I. apply in_map_iff in I as (u & <- & I). rewrite E. apply H. exact I. }
           rewrite S1. reflexivity.
      * intros N. exfalso. apply N. auto.
    + split; [|intros _; eexists; eexists; reflexivity]. split; [discriminate|]. intros (Q & _). rewrite Q in F. discriminate.
  - split; [|intros _; eexists; eexists; reflexivity]. split; [discriminate|]. intros (_ & Q & _). rewrite Q, Z.eqb_refl in E. discriminate.
Qed.
(** On clocks that are not put back and before the last second of the day, a call returns with the
    first reading in the next second at the latest. *)
Theorem C119_partial : forall zone s t0 ts u, sound s -> In u ts -> whole u = whole t0 + 1 -> zone (whole u) = zone (whole t0) ->
  day_second zone t0 <> 86399 -> s32_next s (map (passedSeconds zone) (t0 :: ts)) <> None.
Proof.
  intros zone s t0 ts u B I W EZ N H. apply C119_exact in H; [|exact B]. destruct H as (_ & _ & H). specialize (H u I).
  unfold day_second in *. rewrite W in *. rewrite EZ in H. set (e := zone (whole t0)) in *. set (x := whole t0) in *. clearbody e x.
  assert (E : (x + 1 + e) mod 86400 = (x + e) mod 86400 + 1).
  { symmetry. pose proof (Z.div_mod (x + e) 86400 ltac:(lia)). pose proof (Z.mod_pos_bound (x + e) 86400 ltac:(lia)). apply (Z.mod_unique_pos _ _ ((x + e) / 86400)); lia. }
  lia.
Qed.
(** 512 calls in one second are answered; the next waits until clocks show a later second of the
    day. *)
Lemma filled : forall k q sec d w clk, 0 <= q -> q + Z.of_nat k = 511 ->
  length (run_clk s32_next (S k) (Sf32 sec d w q) (repeat sec (S k) ++ clk)) = (k + length (run_clk s32_next 1 (Sf32 sec d w 511) (sec :: clk)))%nat.
Proof.
  induction k as [|k IH]; intros q sec d w clk H0 Hq.
  - replace q with 511 by lia. reflexivity.
  - change (repeat sec (S (S k)) ++ clk) with (sec :: (repeat sec (S k) ++ clk)).
    specialize (IH (q + 1) sec d w clk ltac:(lia) ltac:(lia)). remember (S k) as m eqn:Em.
    cbn [run_clk]. unfold s32_next at 1. cbn [s32_sec s32_seq s32_dc s32_worker]. rewrite Z.eqb_refl. cbv iota.
    rewrite land_511. rewrite Z.mod_small by lia. replace (q + 1 =? 0) with false by lia. cbn [length]. rewrite IH, Em. reflexivity.
Qed.
Lemma filled_all s sec clk : s32_sec s <> sec -> Forall (fun x => x <= sec) clk ->
  length (run_clk s32_next 513 s (repeat sec 513 ++ clk)) = 512%nat.
Proof.
  intros N H. change (repeat sec 513 ++ clk) with (sec :: (repeat sec 512 ++ clk)).
  assert (E : s32_next s (sec :: (repeat sec 512 ++ clk)) = Some (Sf32 sec (s32_dc s) (s32_worker s) 0, s32_pack sec (s32_dc s) (s32_worker s) 0, repeat sec 512 ++ clk)).
  { unfold s32_next. replace (s32_sec s =? sec) with false by (symmetry; apply Z.eqb_neq; exact N). reflexivity. }
  pose proof (filled 511 0 sec (s32_dc s) (s32_worker s) clk ltac:(lia) ltac:(lia)) as G. set (r := repeat sec 512 ++ clk) in *.
  change (run_clk s32_next 513 s (sec :: r)) with (match s32_next s (sec :: r) with None => [] | Some (s', v, rest) => v :: run_clk s32_next 512 s' rest end).
  rewrite E. cbv iota beta. transitivity (S (length (run_clk s32_next 512 (Sf32 sec (s32_dc s) (s32_worker s) 0) r))); [reflexivity|]. rewrite G.
  cbn [run_clk]. unfold s32_next. cbn [s32_sec s32_seq]. rewrite Z.eqb_refl. change (Z.land (511 + 1) 511 =? 0) with true. cbv iota.
  replace (spin sec clk) with (@None (Z * list Z)) by (symmetry; apply spin_none; exact H). reflexivity.
Qed.
(** Before clocks are put back by [back] seconds the 513th call in a second is not answered while
    they show that time again: not within [back] seconds. *)
Theorem C119_refuted_back : forall zone s t0 ts back, s32_sec s <> day_second zone t0 ->
  0 < back <= day_second zone t0 + 1 -> (forall k, 1 <= k <= back -> zone (whole t0 + k) = zone (whole t0) - back) ->
  Forall (fun u => whole t0 <= whole u <= whole t0 + back) ts ->
  length (calls zone 513 s (repeat t0 513 ++ ts)) = 512%nat.
Proof.
  intros zone s t0 ts back N P EZ F. unfold calls. rewrite map_app, !map_passed.
  assert (R : map (day_second zone) (repeat t0 513) = repeat (day_second zone t0) 513).
  { generalize 513%nat. induction n as [|n IH]; [reflexivity|]. cbn [repeat map]. rewrite IH. reflexivity. }
  rewrite R. apply filled_all; [exact N|]. apply Forall_forall. intros x I. apply in_map_iff in I as (u & <- & I). rewrite Forall_forall in F. specialize (F u I).
  destruct (Z.eq_dec (whole u) (whole t0)) as [E|E]; [unfold day_second; rewrite E; lia|].
  specialize (EZ (whole u - whole t0) ltac:(lia)). replace (whole t0 + (whole u - whole t0)) with (whole u) in EZ by lia.
  unfold day_second in *. rewrite EZ. set (e := zone (whole t0)) in *. set (x := whole t0) in *. set (y := whole u) in *. clearbody e x y. clear EZ.
  assert (Q : (y + (e - back)) mod 86400 = (x + e) mod 86400 + (y - x - back)); [|lia].
  symmetry. pose proof (Z.div_mod (x + e) 86400 ltac:(lia)). pose proof (Z.mod_pos_bound (x + e) 86400 ltac:(lia)). apply (Z.mod_unique_pos _ _ ((x + e) / 86400)); lia.
Qed.
(** In the last second of a day it is never answered, whatever the zone. *)
Theorem C119_refuted : forall zone s t0 ts, s32_sec s <> 86399 -> day_second zone t0 = 86399 ->
  length (calls zone 513 s (repeat t0 513 ++ ts)) = 512%nat.
Proof.
  intros zone s t0 ts N E. unfold calls. rewrite map_app, !map_passed.
  assert (R : map (day_second zone) (repeat t0 513) = repeat 86399 513).
  { rewrite <- E. generalize 513%nat. induction n as [|n IH]; [reflexivity|]. cbn [repeat map]. rewrite IH. reflexivity. }
  rewrite R. apply filled_all; [exact N|]. apply Forall_forall. intros x I. apply in_map_iff in I as (u & <- & _). pose proof (second_bound zone u). lia.
Qed.
Print Assumptions C119_exact.
Print Assumptions C119_partial.
Print Assumptions C119_refuted_back.
Print Assumptions C119_refuted.
(** Berlin, 25 October 2026: clocks go from 02:59:59 summer time back to 02:00:00; 513 calls in
    that second and readings up to an hour later, against a reading one second after that. *)
Example C119_case :
  let t := 1792889999 * 1000000000 in
  day_second PropTime.berlin t = 10799 /\
  (forall k, 1 <= k <= 3600 -> PropTime.berlin (1792889999 + k) = PropTime.berlin 1792889999 - 3600) /\
  length (calls PropTime.berlin 513 (NewSnowflake32 1 2) (repeat t 513 ++ map (fun k => t + k * 1000000000) [1; 2; 1800; 3600])) = 512%nat /\
  length (calls PropTime.berlin 513 (NewSnowflake32 1 2) (repeat t 513 ++ map (fun k => t + k * 1000000000) [1; 2; 1800; 3600; 3601])) = 513%nat /\
  length (calls (fun _ => 28800) 513 (NewSnowflake32 1 2) (repeat t 513 ++ map (fun k => t + k * 1000000000) [1])) = 513%nat.
Proof.
  Transparent before_year day_number civil_of. cbv zeta.
  split; [vm_compute; reflexivity|]. split; [|vm_compute; auto].
  intros k H. unfold PropTime.berlin. replace (1792889999 + k <? 1792890000) with false by lia. reflexivity.
Qed.

(** * PropMinute: property C118 (BCD message ids in real time). *)
From Verif Require Import Base SpecText UtilsModel UtilsProofs SeqModel SeqProofs TimeModel SpecTime TimeProofs.
From Verif Require PropTime.
Local Notation whole := PropTime.whole.

(** ** Specification *)
(** Clocks of the zone show this month, day, hour and minute at the instant [t]. *)
Definition shows (zone : Z -> Z) (t mo d hh mi : Z) : Prop :=
  exists y ss, date_ok y mo d /\ 0 <= hh < 24 /\ 0 <= mi < 60 /\ 0 <= ss < 60 /\ instant y mo d hh mi ss (zone (whole t)) = whole t.
Definition same_minute (zone : Z -> Z) (t u : Z) : Prop := exists mo d hh mi, shows zone t mo d hh mi /\ shows zone u mo d hh mi.

Opaque before_year day_number civil_of.

(** ** The minute as a number *)
Definition minv (zone : Z -> Z) (t : Z) : Z :=
  let c := civil_of zone t in 1000000 * cv_month c + 10000 * cv_day c + 100 * cv_hour c + cv_min c.
Lemma minv_bound zone t : 0 <= minv zone t < 10 ^ 8.
Proof. destruct (civil_ok zone t) as (D & B1 & B2 & B3 & _). pose proof (date_small _ _ _ D) as [M K]. unfold minv. change (10 ^ 8) with 100000000. lia. Qed.
Lemma Format8_minute zone t : Format8 zone t = minute_str (minv zone t).
Proof.
  destruct (minute_str_spec (minv zone t) (minv_bound zone t)) as (L & D & V).
  destruct (civil_ok zone t) as (D' & B1 & B2 & B3 & _). pose proof (date_small _ _ _ D') as [M K].
  apply dec_value_inj; [rewrite L; reflexivity| |exact D|].
  - unfold Format8. repeat (apply Forall_app; split); apply PropTime.two_bytes; lia.
  - rewrite V. unfold Format8, minv, dec_value, two. set (c := civil_of zone t) in *. clearbody c. cbn [app fold_left].
    pose proof (Z.div_mod (cv_month c) 10 ltac:(lia)). pose proof (Z.div_mod (cv_day c) 10 ltac:(lia)). pose proof (Z.div_mod (cv_hour c) 10 ltac:(lia)).
    pose proof (Z.div_mod (cv_min c) 10 ltac:(lia)). lia.
Qed.
Lemma bcd_at_run zone ts : forall s, bcd_at zone s ts = bcd_run s (map (minv zone) ts).
Proof.
  induction ts as [|t ts IH]; intros s; [reflexivity|]. cbn [bcd_at bcd_run map]. rewrite Format8_minute.
  destruct (bcd_next s (minute_str (minv zone t))) as [[s' v]| |]; cbn [bind]; [rewrite IH; reflexivity|reflexivity|reflexivity].
Qed.
Lemma shows_civil zone t mo d hh mi : shows zone t mo d hh mi <->
  (let c := civil_of zone t in cv_month c = mo /\ cv_day c = d /\ cv_hour c = hh /\ cv_min c = mi).
Proof.
  split.
  - intros (y & ss & D & H1 & H2 & H3 & E). cbv zeta. rewrite (PropTime.civil_unique zone t y mo d hh mi ss D H1 H2 H3 E).
    cbn [cv_month cv_day cv_hour cv_min]. auto.
  - cbv zeta. intros (E1 & E2 & E3 & E4). destruct (civil_ok zone t) as (D & B1 & B2 & B3 & Q).
    rewrite E1, E2 in D. rewrite E3 in B1. rewrite E4 in B2. rewrite E1, E2, E3, E4 in Q. exists (cv_year (civil_of zone t)), (cv_sec (civil_of zone t)). auto 10.
Qed.
Lemma same_minv zone t u : same_minute zone t u <-> minv zone t = minv zone u.
Proof.
  unfold minv. destruct (civil_ok zone t) as (D & B1 & B2 & _ & _). pose proof (date_small _ _ _ D) as [M K].
  destruct (civil_ok zone u) as (D' & B1' & B2' & _ & _). pose proof (date_small _ _ _ D') as [M' K']. split.
  - intros (mo & d & hh & mi & H1 & H2). apply shows_civil in H1 as (E1 & E2 & E3 & E4). apply shows_civil in H2 as (F1 & F2 & F3 & F4). lia.
  - intros E. exists (cv_month (civil_of zone t)), (cv_day (civil_of zone t)), (cv_hour (civil_of zone t)), (cv_min (civil_of zone t)).
    split; apply shows_civil; cbv zeta; [auto|]. lia.
Qed.

(** ** What a generator makes *)
Lemma fresh w s : NewBcdSequence w = Ok s -> length (bcd_worker s) = 3%nat /\ bcd_ts s = [] /\ bcd_seq s = 0.
Proof.
  intros Hw. unfold NewBcdSequence in Hw. destruct (slice _ _ _) as [w3| |] eqn:Es; try discriminate.
  cbn [bind] in Hw. injection Hw as <-. cbn. split; auto. apply StoBcd_length. apply slice_len in Es. unfold zlen in Es. lia.
Qed.
Lemma minutes_bound zone ts : Forall (fun m => 0 <= m < 10 ^ 8) (map (minv zone) ts).
Proof. apply Forall_forall. intros m I. apply in_map_iff in I as (t & <- & _). apply minv_bound. Qed.
Lemma counters_bound : forall clk p q, Forall (fun q => 0 <= q < 1000000) (bcd_counters p q clk).
Proof. induction clk as [|m clk IH]; intros p q; cbn [bcd_counters]; constructor; auto. destruct p; [destruct (_ =? _)|]; lia. Qed.
Lemma made w s zone ts : NewBcdSequence w = Ok s -> exists vs, bcd_at zone s ts = Ok vs /\
  Forall2 (fun mq v => bcd_id (bcd_worker s) (fst mq) (snd mq) v) (combine (map (minv zone) ts) (bcd_counters None 0 (map (minv zone) ts))) vs.
Proof.
  intros Hw. destruct (fresh w s Hw) as (Lw & Ts & Qs). rewrite bcd_at_run. rewrite <- Qs.
  apply bcd_run_ok; [exact Lw|lia|apply minutes_bound|exact Ts].
Qed.
Lemma length_counters : forall clk p q, length (bcd_counters p q clk) = length clk.
Proof. induction clk as [|m clk IH]; intros p q; cbn [bcd_counters length]; auto. Qed.
Lemma made_nth w s zone ts vs k v : NewBcdSequence w = Ok s -> bcd_at zone s ts = Ok vs -> nth_error vs k = Some v ->
  exists t q, nth_error ts k = Some t /\ nth_error (bcd_counters None 0 (map (minv zone) ts)) k = Some q /\ 0 <= q < 1000000 /\
    bcd_id (bcd_worker s) (minv zone t) q v.
Proof.
  intros Hw Hr Hk. destruct (made w s zone ts Hw) as (vs' & E & F). rewrite Hr in E. injection E as <-.
  assert (exists mq, nth_error (combine (map (minv zone) ts) (bcd_counters None 0 (map (minv zone) ts))) k = Some mq /\ bcd_id (bcd_worker s) (fst mq) (snd mq) v) as ([m q] & H1 & H2).
  { clear - F Hk. revert k Hk. induction F as [|a b l l' H F IH]; intros k Hk; [destruct k; discriminate|].
    destruct k; cbn in *; [injection Hk as <-; eauto|]. apply IH; auto. }
  assert (HH : forall (a b : list Z) k m q, nth_error (combine a b) k = Some (m, q) -> nth_error a k = Some m /\ nth_error b k = Some q).
  { clear. induction a as [|x a IH]; intros b k m q H; destruct b; destruct k; cbn in *; try discriminate; auto. injection H as <- <-; auto. }
  apply HH in H1 as [H1 H3]. rewrite nth_error_map in H1. destruct (nth_error ts k) as [t|]; [|discriminate]. injection H1 as <-. exists t, q.
  split; [reflexivity|]. split; [exact H3|]. split; [|exact H2]. apply nth_error_In in H3. pose proof (counters_bound (map (minv zone) ts) None 0) as G. rewrite Forall_forall in G. auto.
Qed.
Lemma made_len w s zone ts vs : NewBcdSequence w = Ok s -> bcd_at zone s ts = Ok vs -> length vs = length ts.
Proof.
  intros Hw Hr. destruct (made w s zone ts Hw) as (vs' & E & F). rewrite Hr in E. injection E as <-. assert (F' : forall (A B : Type) (R : A -> B -> Prop) a b, Forall2 R a b -> length a = length b) by (induction 1; cbn [length]; congruence). apply F' in F.
  rewrite <- F, combine_length, length_counters, map_length. lia.
Qed.
(** Counters within a stretch of one minute. *)
Lemma stretch : forall clk p q0 i j m qi qj, (i <= j)%nat -> (forall k, (i <= k <= j)%nat -> nth_error clk k = Some m) ->
  nth_error (bcd_counters p q0 clk) i = Some qi -> nth_error (bcd_counters p q0 clk) j = Some qj ->
  0 <= qi < 1000000 -> qj = (qi + Z.of_nat (j - i)) mod 1000000.
Proof.
  assert (G : forall clk q0 j m, (forall k, (k <= j)%nat -> nth_error clk k = Some m) ->
    nth_error (bcd_counters (Some m) q0 clk) j = Some ((q0 + 1 + Z.of_nat j) mod 1000000)).
  { induction clk as [|x clk IH]; intros q0 j m H; [specialize (H 0%nat ltac:(lia)); discriminate|].
    pose proof (H 0%nat ltac:(lia)) as H0. injection H0 as ->. cbn [bcd_counters]. rewrite Z.eqb_refl. destruct j; cbn [nth_error].
    - rewrite Z.add_0_r. reflexivity.
    - rewrite (IH _ j m); [|intros k Hk; exact (H (S k) ltac:(lia))]. f_equal. rewrite <- Z.add_assoc, Zplus_mod_idemp_l. f_equal. lia. }
  induction clk as [|x clk IH]; intros p q0 i j m qi qj L H Hi Hj B; [destruct i; discriminate|].
  destruct i as [|i].
  - pose proof (H 0%nat ltac:(lia)) as H0. injection H0 as ->. cbn [bcd_counters nth_error] in Hi, Hj. injection Hi as Hi. rewrite Hi in Hj. destruct j as [|j].
    + cbn [nth_error] in Hj. injection Hj as <-. cbn. rewrite Z.add_0_r, Z.mod_small by lia. reflexivity.
    + cbn [nth_error] in Hj. rewrite (G clk qi j m) in Hj; [|intros k Hk; exact (H (S k) ltac:(lia))]. injection Hj as <-. f_equal. lia.
  - destruct j as [|j]; [lia|]. cbn [bcd_counters nth_error] in Hi, Hj. replace (S j - S i)%nat with (j - i)%nat by lia.
    eapply (IH _ _ i j m qi qj); [lia| |exact Hi|exact Hj|exact B]. intros k Hk. exact (H (S k) ltac:(lia)).
Qed.
(** Local minutes less than a year apart that clocks show alike are the same. *)
Lemma minute_close zone t u : zone (whole t) = zone (whole u) -> minv zone t = minv zone u -> whole t <= whole u <= whole t + 365 * 86400 - 60 ->
  (whole t + zone (whole t)) / 60 = (whole u + zone (whole u)) / 60.
Proof.
  intros EZ E L. apply same_minv in E as (mo & d & hh & mi & (y & ss & D & H1 & H2 & H3 & Q) & (y' & ss' & D' & _ & _ & H3' & Q')).
  rewrite <- EZ in *. unfold instant in *. pose proof (date_small _ _ _ D) as [M _].
  assert (y = y').
  { destruct (Z_lt_ge_dec y y') as [L1|]; [exfalso|destruct (Z_lt_ge_dec y' y) as [L1|]; [exfalso|lia]].
    - pose proof (PropTime.year_apart y y' mo d M L1) as X. set (a := day_number y mo d) in *. set (b := day_number y' mo d) in *. set (c := day_number 1970 1 1) in *. clearbody a b c. lia.
    - pose proof (PropTime.year_apart y' y mo d M L1) as X. set (a := day_number y mo d) in *. set (b := day_number y' mo d) in *. set (c := day_number 1970 1 1) in *. clearbody a b c. lia. }
  subst y'. set (a := day_number y mo d) in *. set (c := day_number 1970 1 1) in *. set (e := zone (whole t)) in *. clearbody a c e.
  transitivity (1440 * (a - c) + 60 * hh + mi).
  - symmetry. apply (Z.div_unique_pos _ _ _ ss); lia.
  - apply (Z.div_unique_pos _ _ _ ss'); lia.
Qed.

(** ** C118 *)
(** Every id made carries the minute clocks show when it is made. *)
Theorem C118_made : forall w s zone ts, NewBcdSequence w = Ok s -> exists vs, bcd_at zone s ts = Ok vs /\ length vs = length ts /\
  forall k t v, nth_error ts k = Some t -> nth_error vs k = Some v -> exists mo d hh mi q, shows zone t mo d hh mi /\ 0 <= q < 1000000 /\
    bcd_id (bcd_worker s) (1000000 * mo + 10000 * d + 100 * hh + mi) q v.
Proof.
  intros w s zone ts Hw. destruct (made w s zone ts Hw) as (vs & E & _). exists vs. split; [exact E|]. split; [exact (made_len w s zone ts vs Hw E)|].
  intros k t v Ht Hv. destruct (made_nth w s zone ts vs k v Hw E Hv) as (t' & q & E1 & _ & Bq & Id). rewrite Ht in E1. injection E1 as <-.
  do 5 eexists. split; [apply shows_civil; cbv zeta; auto|]. split; [exact Bq|]. exact Id.
Qed.
(** Less than a year apart on clocks that are not put forward or back, two equal ids were made in
    the same minute with at least a million ids from one to the other. *)
Theorem C118_partial : forall w s zone ts vs i j ti tj v, NewBcdSequence w = Ok s -> bcd_at zone s ts = Ok vs ->
  (forall t, In t ts -> zone (whole t) = zone (whole ti)) ->
  (forall a b ta tb, (a <= b)%nat -> nth_error ts a = Some ta -> nth_error ts b = Some tb -> ta <= tb) ->
  nth_error ts i = Some ti -> nth_error ts j = Some tj -> whole tj - whole ti <= 365 * 86400 - 60 ->
  (i < j)%nat -> nth_error vs i = Some v -> nth_error vs j = Some v ->
  (whole ti + zone (whole ti)) / 60 = (whole tj + zone (whole ti)) / 60 /\ 1000000 <= Z.of_nat (j - i).
Proof.
  intros w s zone ts vs i j ti tj v Hw Hr EZ Mono Hi Hj Near Lt Vi Vj.
  destruct (made_nth w s zone ts vs i v Hw Hr Vi) as (t1 & qi & E1 & Ci & Bi & Ii). rewrite Hi in E1. injection E1 as <-.
  destruct (made_nth w s zone ts vs j v Hw Hr Vj) as (t2 & qj & E2 & Cj & Bj & Ij). rewrite Hj in E2. injection E2 as <-.
  destruct (bcd_id_inj _ _ _ _ _ _ Ii Ij) as [Em Eq]. subst qj.
  assert (WM : forall a b, a <= b -> whole a <= whole b) by (intros a b L; unfold PropTime.whole; apply Z.div_le_mono; lia).
  assert (Ezj : zone (whole ti) = zone (whole tj)) by (symmetry; apply EZ; eapply nth_error_In; exact Hj).
  pose proof (Mono i j ti tj ltac:(lia) Hi Hj) as Lij. pose proof (WM _ _ Lij) as Wij.
  pose proof (minute_close zone ti tj Ezj Em ltac:(lia)) as Cl. rewrite <- Ezj in Cl. split; [exact Cl|].
  assert (St : forall k, (i <= k <= j)%nat -> nth_error (map (minv zone) ts) k = Some (minv zone ti)).
  { intros k Hk. rewrite nth_error_map. assert (Lj : (j < length ts)%nat) by (apply nth_error_Some; rewrite Hj; discriminate).
    destruct (nth_error ts k) as [tk|] eqn:Ek; [|apply nth_error_None in Ek; lia]. cbn [option_map]. f_equal.
    pose proof (WM _ _ (Mono i k ti tk ltac:(lia) Hi Ek)) as W1. pose proof (WM _ _ (Mono k j tk tj ltac:(lia) Ek Hj)) as W2.
    assert (Ezk : zone (whole tk) = zone (whole ti)) by (apply EZ; eapply nth_error_In; exact Ek).
    assert (Ck : (whole tk + zone (whole ti)) / 60 = (whole ti + zone (whole ti)) / 60).
    { apply Z.le_antisymm; [rewrite Cl|]; apply Z.div_le_mono; lia. }
    apply same_minv. destruct (civil_ok zone ti) as (D & B1 & B2 & B3 & Q). change (second_of ti) with (whole ti) in Q.
    destruct (civil_of zone ti) as [y mo d hh mi ss] eqn:Ec. cbn [cv_year cv_month cv_day cv_hour cv_min cv_sec] in *.
    exists mo, d, hh, mi. split; [|apply shows_civil; cbv zeta; rewrite Ec; cbn [cv_month cv_day cv_hour cv_min]; auto].
    exists y, (ss + (whole tk - whole ti)). unfold instant in *. rewrite Ezk. set (e := zone (whole ti)) in *. set (a := day_number y mo d) in *. set (c := day_number 1970 1 1) in *.
    assert (P : (whole ti + e) / 60 = 1440 * (a - c) + 60 * hh + mi) by (symmetry; apply (Z.div_unique_pos _ _ _ ss); clearbody a c e; lia).
    pose proof (Z.div_mod (whole tk + e) 60 ltac:(lia)) as X. pose proof (Z.mod_pos_bound (whole tk + e) 60 ltac:(lia)) as Y. rewrite Ck, P in X.
    clearbody a c e. split; [exact D|]. split; [exact B1|]. split; [exact B2|]. split; lia. }
  pose proof (stretch _ None 0 i j (minv zone ti) qi qi ltac:(lia) St Ci Cj Bi) as X. lia.
Qed.
(** The counter starts again at 0 in every minute that differs from the one before: two instants
    that clocks show alike, each after an id of another minute (or as the first), get the same
    id. *)
Lemma restart_zero : forall pre p q0 m rest, match pre with [] => p <> Some m | x :: l => last (x :: l) 0 <> m end ->
  nth_error (bcd_counters p q0 (pre ++ m :: rest)) (length pre) = Some 0.
Proof.
  induction pre as [|x pre IH]; intros p q0 m rest H; cbn [app bcd_counters length nth_error].
  - destruct p as [p|]; [|reflexivity]. destruct (p =? m) eqn:E; [|reflexivity]. apply Z.eqb_eq in E. subst p. destruct (H eq_refl).
  - apply IH. destruct pre as [|z pre]; [|exact H]. cbn in H. intros [= ->]. exact (H eq_refl).
Qed.
Definition new_minute (zone : Z -> Z) (pre : list Z) (t : Z) : Prop := match pre with [] => True | x :: l => ~ same_minute zone (last l x) t end.
Lemma last_map (f : Z -> Z) l x d : last (map f (x :: l)) d = f (last l x).
Proof. revert x. induction l as [|y l IH]; intros x; [reflexivity|]. cbn [map]. change (last (f x :: f y :: map f l) d) with (last (map f (y :: l)) d). rewrite IH. f_equal. clear. revert x y. induction l as [|z l IH]; intros x y; [reflexivity|]. change (last (z :: l) y = last (z :: l) x). clear. revert z. induction l as [|a l IH]; intros z; [reflexivity|]. apply IH. Qed.
Lemma zero_at zone pre t rest : new_minute zone pre t ->
  nth_error (bcd_counters None 0 (map (minv zone) (pre ++ t :: rest))) (length pre) = Some 0.
Proof.
  intros H. rewrite map_app. cbn [map]. rewrite <- (map_length (minv zone) pre). apply restart_zero. destruct pre as [|x pre]; [discriminate|].
  cbn [new_minute] in H. cbn [map]. change (minv zone x :: map (minv zone) pre) with (map (minv zone) (x :: pre)). rewrite last_map. intros E. apply H. apply same_minv. exact E.
Qed.
Lemma bcd_id_fun w m q v v' : bcd_id w m q v -> bcd_id w m q v' -> v = v'.
Proof.
  intros (ms & qs & pm & pq & L1 & D1 & V1 & L2 & D2 & V2 & P1 & P2 & ->) (ms' & qs' & pm' & pq' & L1' & D1' & V1' & L2' & D2' & V2' & P1' & P2' & ->).
  assert (ms = ms') by (apply dec_value_inj; auto; congruence). assert (qs = qs') by (apply dec_value_inj; auto; congruence). subst.
  rewrite <- (StoBcd_packed _ _ P1), <- (StoBcd_packed _ _ P1'), <- (StoBcd_packed _ _ P2), <- (StoBcd_packed _ _ P2'). reflexivity.
Qed.
Theorem C118_refuted_exact : forall w s zone pre t mid u rest, NewBcdSequence w = Ok s -> same_minute zone t u ->
  new_minute zone pre t -> new_minute zone (pre ++ t :: mid) u ->
  exists vs v, bcd_at zone s (pre ++ t :: mid ++ u :: rest) = Ok vs /\ nth_error vs (length pre) = Some v /\
    nth_error vs (S (length pre + length mid)) = Some v.
Proof.
  intros w s zone pre t mid u rest Hw SM N1 N2. destruct (made w s zone (pre ++ t :: mid ++ u :: rest) Hw) as (vs & E & _).
  pose proof (made_len w s zone _ vs Hw E) as L. rewrite app_length in L. cbn [length] in L. rewrite app_length in L. cbn [length] in L.
  destruct (nth_error vs (length pre)) as [v|] eqn:E1; [|apply nth_error_None in E1; lia].
  destruct (nth_error vs (S (length pre + length mid))) as [v'|] eqn:E2; [|apply nth_error_None in E2; lia].
  destruct (made_nth w s zone _ vs _ v Hw E E1) as (t1 & q1 & T1 & C1 & _ & I1). destruct (made_nth w s zone _ vs _ v' Hw E E2) as (t2 & q2 & T2 & C2 & _ & I2).
  rewrite (zero_at zone pre t (mid ++ u :: rest) N1) in C1. injection C1 as <-.
  assert (Lp : length (pre ++ t :: mid) = S (length pre + length mid)) by (rewrite app_length; cbn [length]; lia).
  assert (Ap : pre ++ t :: mid ++ u :: rest = (pre ++ t :: mid) ++ u :: rest) by (rewrite <- app_assoc; reflexivity).
  rewrite Ap, <- Lp in C2, T2. rewrite (zero_at zone (pre ++ t :: mid) u rest N2) in C2. injection C2 as <-.
  rewrite nth_error_app2, Nat.sub_diag in T1 by lia. injection T1 as <-. rewrite nth_error_app2, Nat.sub_diag in T2 by lia. injection T2 as <-.
  apply same_minv in SM. rewrite SM in I1. assert (v = v') as <- by (eapply bcd_id_fun; eauto). exists vs, v. auto.
Qed.
(** So the ids of a minute come again after clocks are put back, and a year later. *)
Theorem C118_refuted : forall zone t,
  (forall back, 0 < back -> zone (whole t + back) = zone (whole t) - back -> same_minute zone t (t + back * 1000000000)) /\
  ((forall s, zone s = zone (whole t)) -> ~ (exists hh mi, shows zone t 2 29 hh mi) ->
   exists days, (days = 365 \/ days = 366) /\ same_minute zone t (t + days * 86400 * 1000000000)).
Proof.
  intros zone t. assert (G : forall u, TimeModel.Now zone u = TimeModel.Now zone t -> same_minute zone t u).
  { intros u E. rewrite !PropTime.Now_eq in E. apply (f_equal snd) in E. cbn [snd] in E. unfold PropTime.stamp_value in E. apply same_minv. unfold minv.
    destruct (civil_ok zone t) as (_ & _ & _ & B & _). destruct (civil_ok zone u) as (_ & _ & _ & B' & _). lia. }
  split.
  - intros back P EZ. apply G. apply (PropTime.C117_refuted_back zone t back P EZ).
  - intros EZ NF. destruct (PropTime.C117_refuted zone t EZ) as (days & Dd & E).
    { intros y hh mi ss H1 H2 H3 D Q. apply NF. exists hh, mi, y, ss. auto 10. }
    exists days. split; [exact Dd|]. apply G. exact E.
Qed.
(** A process started again in the same minute with the same worker gives out the same ids. *)
Theorem C118_refuted_restart : forall w s zone ts ts' mo d hh mi, NewBcdSequence w = Ok s ->
  (forall t, In t ts \/ In t ts' -> shows zone t mo d hh mi) ->
  exists vs vs', bcd_at zone s ts = Ok vs /\ bcd_at zone s ts' = Ok vs' /\ length vs = length ts /\ length vs' = length ts' /\
    forall k v v', nth_error vs k = Some v -> nth_error vs' k = Some v' -> v = v'.
Proof.
  intros w s zone ts ts' mo d hh mi Hw H. destruct (made w s zone ts Hw) as (vs & E & _). destruct (made w s zone ts' Hw) as (vs' & E' & _).
  exists vs, vs'. split; [exact E|]. split; [exact E'|]. split; [exact (made_len _ _ _ _ _ Hw E)|]. split; [exact (made_len _ _ _ _ _ Hw E')|].
  set (m := 1000000 * mo + 10000 * d + 100 * hh + mi).
  assert (Mv : forall t, In t ts \/ In t ts' -> minv zone t = m) by (intros t I; apply H in I; apply shows_civil in I as (<- & <- & <- & <-); reflexivity).
  intros k v v' Ek Ek'.
  destruct (made_nth w s zone ts vs k v Hw E Ek) as (t & q & T1 & C1 & B1 & I1). destruct (made_nth w s zone ts' vs' k v' Hw E' Ek') as (t' & q' & T2 & C2 & B2 & I2).
  assert (St : forall l, (forall t, In t l -> minv zone t = m) -> (k < length l)%nat -> forall q, nth_error (bcd_counters None 0 (map (minv zone) l)) k = Some q -> q = (0 + Z.of_nat k) mod 1000000).
  { intros l Hl Lk q0 C0. replace (Z.of_nat k) with (Z.of_nat (k - 0)) by (f_equal; lia).
    apply (stretch (map (minv zone) l) None 0 0 k m 0 q0); [lia| | |exact C0|lia].
    - intros i Hi. rewrite nth_error_map. destruct (nth_error l i) as [x|] eqn:Ex; [|apply nth_error_None in Ex; lia]. cbn [option_map]. f_equal. apply Hl. eapply nth_error_In; exact Ex.
    - destruct l as [|x l]; [cbn in Lk; lia|]. reflexivity. }
  assert (q = q').
  { rewrite (St ts (fun x I => Mv x (or_introl I)) ltac:(apply nth_error_Some; rewrite T1; discriminate) q C1).
    rewrite (St ts' (fun x I => Mv x (or_intror I)) ltac:(apply nth_error_Some; rewrite T2; discriminate) q' C2). reflexivity. }
  subst q'. rewrite (Mv t (or_introl (nth_error_In _ _ T1))) in I1. rewrite (Mv t' (or_intror (nth_error_In _ _ T2))) in I2. eapply bcd_id_fun; eauto.
Qed.
Print Assumptions C118_made.
Print Assumptions C118_partial.
Print Assumptions C118_refuted_exact.
Print Assumptions C118_refuted.
Print Assumptions C118_refuted_restart.
(** Ids in Berlin on the night clocks are put back: at 02:43 summer time twice, at 02:59, at 02:43 winter
    time; over New Year on clocks of China. *)
Example C118_case :
  bcd_at PropTime.berlin (Bcd [18; 52; 86] [] 0) (map (Z.mul 1000000000) [1792888980; 1792888990; 1792889960; 1792892580]) =
    Ok [[18; 52; 86; 16; 37; 2; 67; 0; 0; 0]; [18; 52; 86; 16; 37; 2; 67; 0; 0; 1]; [18; 52; 86; 16; 37; 2; 89; 0; 0; 0]; [18; 52; 86; 16; 37; 2; 67; 0; 0; 0]] /\
  bcd_at (fun _ => 28800) (Bcd [18; 52; 86] [] 0) (map (Z.mul 1000000000) [1798732799; 1798732800]) =
    Ok [[18; 52; 86; 18; 49; 35; 89; 0; 0; 0]; [18; 52; 86; 1; 1; 0; 0; 0; 0; 0]] /\
  NewBcdSequence [49; 50; 51; 52; 53; 54] = Ok (Bcd [18; 52; 86] [] 0).
Proof. Transparent before_year day_number civil_of. vm_compute. auto. Qed.

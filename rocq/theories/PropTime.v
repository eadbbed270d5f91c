(** * PropTime: properties C116 (times on the wire) and C117 (the time stamp of a login). *)
From Verif Require Import Base SpecText UtilsModel OptionsModel SpecWire CmppModel CmppProofs CmppBuildProofs SgipModel SmgpModel SpecSgip
  TimeModel SpecTime TimeProofs.
From Verif Require PropCmpp PropSgip PropSmgp UtilsProofs.

(** ** Specification *)
(** The instant, in seconds, is in the 21st century on clocks [east] seconds east of UTC. *)
Definition this_century (east s : Z) : Prop := instant 2000 1 1 0 0 0 east <= s < instant 2100 1 1 0 0 0 east.
(** Clocks in China: eight hours ahead of UTC. *)
Definition china : Z := 28800.

(** ** Reading a formatted time *)
Lemma before_year_lt y1 y2 : y1 < y2 -> before_year y1 + 365 <= before_year y2.
Proof.
  assert (G : forall n y, before_year y + 365 <= before_year (y + 1 + Z.of_nat n)).
  { induction n as [|n IH]; intros y.
    - replace (y + 1 + Z.of_nat 0) with (y + 1) by lia. rewrite year_length.
      assert (365 <= sum (months y)) by (unfold months; destruct (leapb y); vm_compute; discriminate). lia.
    - replace (y + 1 + Z.of_nat (S n)) with (y + 1 + Z.of_nat n + 1) by lia. rewrite year_length.
      assert (0 <= sum (months (y + 1 + Z.of_nat n))) by (unfold months; destruct (leapb _); vm_compute; discriminate). specialize (IH y). lia. }
  intros H. specialize (G (Z.to_nat (y2 - y1 - 1)) y1). replace (y1 + 1 + Z.of_nat (Z.to_nat (y2 - y1 - 1))) with y2 in G by lia. exact G.
Qed.
Lemma day_in_year y m d : date_ok y m d -> before_year y <= day_number y m d < before_year (y + 1).
Proof.
  intros [H1 H2]. rewrite year_length. unfold day_number.
  assert (m = 1 \/ m = 2 \/ m = 3 \/ m = 4 \/ m = 5 \/ m = 6 \/ m = 7 \/ m = 8 \/ m = 9 \/ m = 10 \/ m = 11 \/ m = 12) as X by lia.
  unfold months in *. destruct (leapb y); repeat (destruct X as [X|X]); subst m; 
    match type of H2 with _ <= _ <= ?x => let v := eval vm_compute in x in change x with v in H2 end;
    match goal with |- context [sum (firstn ?a ?b)] => let v := eval vm_compute in (sum (firstn a b)) in change (sum (firstn a b)) with v end;
    match goal with |- context [sum ?b] => let v := eval vm_compute in (sum b) in change (sum b) with v end; lia.
Qed.
Lemma jan_2000 : day_number 2000 1 1 = before_year 2000.
Proof. vm_compute. reflexivity. Qed.
Lemma jan_2100 : day_number 2100 1 1 = before_year 2100.
Proof. vm_compute. reflexivity. Qed.
Lemma year_within y : before_year 2000 < before_year (y + 1) -> before_year y < before_year 2100 -> 2000 <= y <= 2099.
Proof.
  intros A1 A2. split.
  - destruct (Z_lt_ge_dec y 2000) as [L|]; [|lia]. exfalso.
    destruct (Z.eq_dec (y + 1) 2000) as [Q|Q]; [rewrite Q in A1; exact (Z.lt_irrefl _ A1)|].
    pose proof (before_year_lt (y + 1) 2000 ltac:(lia)) as X. apply (Z.lt_irrefl (before_year 2000)). eapply Z.lt_le_trans; [exact A1|].
    eapply Z.le_trans; [|exact X]. rewrite <- (Z.add_0_r (before_year (y + 1))) at 1. apply Z.add_le_mono_l. discriminate.
  - destruct (Z_lt_ge_dec 2099 y) as [L|]; [|lia]. exfalso.
    destruct (Z.eq_dec y 2100) as [Q|Q]; [rewrite Q in A2; exact (Z.lt_irrefl _ A2)|].
    pose proof (before_year_lt 2100 y ltac:(lia)) as X. apply (Z.lt_irrefl (before_year y)). eapply Z.lt_le_trans; [exact A2|].
    eapply Z.le_trans; [|exact X]. rewrite <- (Z.add_0_r (before_year 2100)) at 1. apply Z.add_le_mono_l. discriminate.
Qed.
Opaque before_year day_number civil_of.
Lemma within_days e s a b c lo hi x h m q : 0 <= h < 24 -> 0 <= m < 60 -> 0 <= q < 60 ->
  86400 * (a - x) + 3600 * 0 + 60 * 0 + 0 - e <= s < 86400 * (b - x) + 3600 * 0 + 60 * 0 + 0 - e ->
  86400 * (c - x) + 3600 * h + 60 * m + q - e = s -> lo <= c < hi -> a < hi /\ lo < b.
Proof. lia. Qed.
Lemma century_year zone t : this_century (zone (second_of t)) (second_of t) -> 2000 <= cv_year (civil_of zone t) <= 2099.
Proof.
  intros H. destruct (civil_ok zone t) as (D & B1 & B2 & B3 & E).
  pose proof (day_in_year _ _ _ D) as Y. unfold this_century, instant in H. unfold instant in E.
  destruct (within_days _ _ _ _ _ _ _ _ _ _ _ B1 B2 B3 H E Y) as [A1 A2].
  apply year_within.
  - exact (eq_ind _ (fun v => v < _) A1 _ jan_2000).
  - exact (eq_ind _ (fun v => _ < v) A2 _ jan_2100).
Qed.
(** What a formatted time is read as: the instant, moved by the difference between the zone it was
    formatted in and China. *)
Lemma FormatTime_read zone t : this_century (zone (second_of t)) (second_of t) ->
  time_read (FormatTime zone t) = Some (second_of t + (zone (second_of t) - china)).
Proof.
  intros H. pose proof (century_year zone t H) as Y. destruct (civil_ok zone t) as (D & B1 & B2 & B3 & E).
  pose proof (date_small _ _ _ D) as [M K]. unfold FormatTime, Format12. set (c := civil_of zone t) in *. clearbody c.
  rewrite Z.max_r by lia.
  assert (Yr : cv_year c mod 100 = cv_year c - 2000) by (symmetry; apply (Z.mod_unique_pos _ _ 20); lia). rewrite Yr.
  unfold two, sfx_032. cbn [app]. unfold time_read. rewrite !num2_two by lia. change (num2 51 50) with (Some 32). cbv iota beta.
  change (43 =? 43) with true. cbv iota. f_equal. replace (2000 + (cv_year c - 2000)) with (cv_year c) by lia.
  unfold instant, china in *. lia.
Qed.
Lemma two_bytes x : 0 <= x < 100 -> Forall (fun b => 48 <= b <= 57) (two x).
Proof. intros H. pose proof (Z.div_mod x 10 ltac:(lia)). pose proof (Z.mod_pos_bound x 10 ltac:(lia)). unfold two. repeat constructor; lia. Qed.
Lemma FormatTime_fits zone t : fits 17 (FormatTime zone t).
Proof.
  destruct (civil_ok zone t) as (D & B1 & B2 & B3 & _). pose proof (date_small _ _ _ D) as [M K].
  split; [|unfold FormatTime, Format12; cbn; lia]. unfold FormatTime, Format12. set (c := civil_of zone t) in *. clearbody c.
  assert (G : Forall (fun b => b <> 0) (two (Z.max 0 (cv_year c) mod 100) ++ two (cv_month c) ++ two (cv_day c) ++ two (cv_hour c) ++ two (cv_min c) ++ two (cv_sec c))).
  { pose proof (Z.mod_pos_bound (Z.max 0 (cv_year c)) 100 ltac:(lia)).
    repeat (apply Forall_app; split); (eapply Forall_impl; [|apply two_bytes; lia]); cbn beta; intros; lia. }
  rewrite in_app_iff. intros [I|I].
  - rewrite Forall_forall in G. exact (G 0 I eq_refl).
  - cbn in I. intuition lia.
Qed.

(** ** The fields of a submit *)
(** Every message the CMPP, SGIP and SMGP builders make of a text, with its end of validity and
    its scheduled time. *)
Inductive message := MCmpp (s : submit) | MSgip (s : ssubmit) | MSmgp (s : msubmit).
Definition valid_field (m : message) : bytes :=
  match m with MCmpp s => sb_validTime s | MSgip s => ss_ExpireTime s | MSmgp s => ms_validTime s end.
Definition at_field (m : message) : bytes :=
  match m with MCmpp s => sb_atTime s | MSgip s => ss_ScheduleTime s | MSmgp s => ms_atTime s end.
(** [m] is one of the messages built at the instant [now] by a process in the zone [zone], for an
    account whose messages are valid for [dur] nanoseconds, with the options [ops]. *)
Inductive built_at (zone : Z -> Z) (now dur : Z) (ops : list mtopt) : message -> Prop :=
| BCmpp ac phones content seq g nxt msgs s :
    NewSubmit ac phones content seq ops (valid_until zone now dur) g nxt = Ok msgs -> In s msgs ->
    built_at zone now dur ops (MCmpp s)
| BSgip ac phones content g q msgs s :
    sgip_NewSubmit ac phones content ops (valid_until zone now dur) g q = Ok msgs -> In s msgs ->
    built_at zone now dur ops (MSgip s)
| BSmgp gbe ac phones content seq g nxt msgs s :
    smgp_NewSubmit gbe ac phones content seq ops (smgp_valid_until zone now dur) g nxt = Ok msgs -> In s msgs ->
    built_at zone now dur ops (MSmgp s).

Lemma cmpp_fields ac phones content seq ops vd g nxt msgs s : NewSubmit ac phones content seq ops vd g nxt = Ok msgs -> In s msgs ->
  sb_validTime s = opt_txt (o_ValidTime (LoadMtOptions ops)) vd /\ sb_atTime s = o_AtTime (LoadMtOptions ops).
Proof.
  intros E I. unfold NewSubmit in E. apply bind_ok in E as (ids & _ & E). apply bind_ok in E as (parts & _ & E).
  match type of E with context [cmpp_part _ ?x _ _ _ _ _ _] => set (s0 := x) in * end.
  assert (P : forall base n total u num q c, sb_validTime (cmpp_part base s0 n total u num q c) = opt_txt (o_ValidTime (LoadMtOptions ops)) vd /\
    sb_atTime (cmpp_part base s0 n total u num q c) = o_AtTime (LoadMtOptions ops)) by (intros; split; reflexivity).
  clearbody s0.
  assert (Q : forall base n total f l i, In s (cmpp_parts base s0 n total f i l) -> exists b n' t u num q c, s = cmpp_part b s0 n' t u num q c).
  { intros base n total f. induction l as [|c l IH]; intros i H; cbn [cmpp_parts] in H; [contradiction|].
    destruct H as [<-|H]; [eauto 10|]. apply IH in H. exact H. }
  assert (R : exists b n t u num q c, s = cmpp_part b s0 n t u num q c).
  { destruct parts as [|p0 [|p1 r]].
    - injection E as <-. contradiction.
    - injection E as <-. destruct I as [<-|[]]. eauto 10.
    - match type of E with Ok ?x = _ => assert (msgs = x) as -> by congruence end. apply Q in I. exact I. }
  destruct R as (b & n & t & u & num & q & c & ->). apply P.
Qed.
Lemma sgip_fields ac phones content ops vd g q msgs s : sgip_NewSubmit ac phones content ops vd g q = Ok msgs -> In s msgs ->
  ss_ExpireTime s = opt_txt (o_ValidTime (LoadMtOptions ops)) vd /\ ss_ScheduleTime s = o_AtTime (LoadMtOptions ops).
Proof.
  intros E I. unfold sgip_NewSubmit in E. apply bind_ok in E as (parts & _ & E).
  assert (R : exists u k c, s = sgip_part ac (LoadMtOptions ops) phones vd (MsgFmt content) u (q k) c).
  { destruct parts as [|p0 [|p1 r]].
    - injection E as <-. contradiction.
    - injection E as <-. destruct I as [<-|[]]. eauto.
    - match type of E with Ok ?x = _ => assert (msgs = x) as -> by congruence end. apply In_nth_error in I as (k & I).
      rewrite PropSgip.sgip_parts_nth in I. destruct (nth_error _ k) as [c|]; [|discriminate]. cbn [option_map] in I. injection I as <-. eauto. }
  destruct R as (u & k & c & ->). split; reflexivity.
Qed.
Lemma smgp_fields gbe ac phones content seq ops now g nxt msgs s : smgp_NewSubmit gbe ac phones content seq ops now g nxt = Ok msgs -> In s msgs ->
  ms_validTime s = now /\ ms_atTime s = o_AtTime (LoadMtOptions ops).
Proof.
  intros E I. unfold smgp_NewSubmit in E. destruct (gbe content) as [data|]; [|injection E as <-; contradiction].
  apply bind_ok in E as (parts & _ & E).
  assert (R : exists q l ml b tl, s = sm_base ac phones q (LoadMtOptions ops) now l ml b tl).
  { destruct parts as [|p0 [|p1 r]].
    - cbn [sm_parts] in E. injection E as <-. contradiction.
    - injection E as <-. destruct I as [<-|[]]. eauto 10.
    - match type of E with Ok ?x = _ => assert (msgs = x) as -> by congruence end. apply In_nth_error in I as (k & I).
      rewrite PropSmgp.sm_parts_nth in I. destruct (nth_error _ k) as [c|]; [|discriminate]. cbn [option_map] in I.
      apply PropSmgp.some_inj in I. subst s. eauto 10. }
  destruct R as (q & l & ml & b & tl & ->). split; reflexivity.
Qed.
(** The option for the scheduled time, unless another one follows it. *)
Definition sets_at (o : mtopt) : bool := match o with OAtTime _ | OAtTimeStr _ => true | _ => false end.
Lemma at_kept l : forall r, forallb (fun o => negb (sets_at o)) l = true -> o_AtTime (fold_left apply_opt l r) = o_AtTime r.
Proof.
  induction l as [|o l IH]; intros r H; [reflexivity|]. cbn [forallb] in H. apply andb_true_iff in H as [H1 H2]. cbn [fold_left].
  rewrite IH by exact H2. destruct r; destruct o; try discriminate; reflexivity.
Qed.
Lemma at_last ops1 ops2 zone t : forallb (fun o => negb (sets_at o)) ops2 = true ->
  o_AtTime (LoadMtOptions (ops1 ++ MtAtTime zone t :: ops2)) = FormatTime zone t.
Proof.
  intros H. unfold LoadMtOptions. rewrite fold_left_app. cbn [fold_left]. rewrite at_kept by exact H.
  destruct (fold_left apply_opt ops1 mt_default). reflexivity.
Qed.

(** An option for the end of validity. *)
Definition sets_valid (o : mtopt) : bool := match o with OValidTime _ => true | _ => false end.
Lemma no_valid ops : forallb (fun o => negb (sets_valid o)) ops = true -> o_ValidTime (LoadMtOptions ops) = [].
Proof.
  assert (G : forall l r, forallb (fun o => negb (sets_valid o)) l = true -> o_ValidTime (fold_left apply_opt l r) = o_ValidTime r).
  { induction l as [|o l IH]; intros r H; [reflexivity|]. cbn [forallb] in H. apply andb_true_iff in H as [H1 H2]. cbn [fold_left].
    rewrite IH by exact H2. destruct r; destruct o; try discriminate; reflexivity. }
  intros H. unfold LoadMtOptions. rewrite G by exact H. reflexivity.
Qed.

(** ** C116 *)
(** The whole second of an instant in nanoseconds. *)
Definition whole (t : Z) : Z := t / 1000000000.
(** What the receiver reads in a packet: the end of validity asked for, and the scheduled time
    asked for, moved by the difference between the zone it was formatted in and China.  (The
    options do not set a validity; for SMGP see C116_refuted_smgp.) *)
Theorem C116_read : forall zone now dur ops m, built_at zone now dur ops m ->
  (let s := whole (now + dur) in
   (forall x, m <> MSmgp x) -> forallb (fun o => negb (sets_valid o)) ops = true -> this_century (zone s) s ->
   fits 17 (valid_field m) /\ time_read (valid_field m) = Some (s + (zone s - china))) /\
  (forall ops1 ops2 zone' t, ops = ops1 ++ MtAtTime zone' t :: ops2 -> forallb (fun o => negb (sets_at o)) ops2 = true ->
   let s := whole t in this_century (zone' s) s ->
   fits 17 (at_field m) /\ time_read (at_field m) = Some (s + (zone' s - china))).
Proof.
  intros zone now dur ops m B. split.
  - intros s NS NV0 TC. pose proof (no_valid ops NV0) as NV. assert (V : valid_field m = FormatTime zone (now + dur)).
    { destruct B as [ac phones content seq g nxt msgs x E I|ac phones content g q msgs x E I|gbe ac phones content seq g nxt msgs x E I].
      - cbn [valid_field]. destruct (cmpp_fields _ _ _ _ _ _ _ _ _ _ E I) as [-> _]. rewrite NV. reflexivity.
      - cbn [valid_field]. destruct (sgip_fields _ _ _ _ _ _ _ _ _ E I) as [-> _]. rewrite NV. reflexivity.
      - destruct (NS x eq_refl). }
    rewrite V. split; [apply FormatTime_fits|]. apply FormatTime_read. exact TC.
  - intros ops1 ops2 zone' t EO HO s TC. assert (V : at_field m = FormatTime zone' t).
    { rewrite <- (at_last ops1 ops2 zone' t HO), <- EO.
      destruct B as [ac phones content seq g nxt msgs x E I|ac phones content g q msgs x E I|gbe ac phones content seq g nxt msgs x E I]; cbn [at_field].
      - apply (cmpp_fields _ _ _ _ _ _ _ _ _ _ E I).
      - apply (sgip_fields _ _ _ _ _ _ _ _ _ E I).
      - apply (smgp_fields _ _ _ _ _ _ _ _ _ _ _ E I). }
    rewrite V. split; [apply FormatTime_fits|]. apply FormatTime_read. exact TC.
Qed.
(** On clocks of China, CMPP and SGIP packets name exactly the second asked for. *)
Theorem C116_partial : forall zone now dur ops m, built_at zone now dur ops m ->
  (let s := whole (now + dur) in
   zone s = china -> (forall x, m <> MSmgp x) -> forallb (fun o => negb (sets_valid o)) ops = true -> this_century china s ->
   time_read (valid_field m) = Some s) /\
  (forall ops1 ops2 zone' t, ops = ops1 ++ MtAtTime zone' t :: ops2 -> forallb (fun o => negb (sets_at o)) ops2 = true ->
   let s := whole t in zone' s = china -> this_century china s -> time_read (at_field m) = Some s).
Proof.
  intros zone now dur ops m B. destruct (C116_read zone now dur ops m B) as [H1 H2]. cbv zeta in H1, H2. split.
  - intros s Z1 NS NV TC. fold s in H1. rewrite Z1 in H1. destruct (H1 NS NV TC) as [_ ->]. f_equal. lia.
  - intros ops1 ops2 zone' t EO HO s Z1 TC. specialize (H2 ops1 ops2 zone' t EO HO). fold s in H2. rewrite Z1 in H2.
    destruct (H2 TC) as [_ ->]. f_equal. lia.
Qed.
(** On any other clock both times are wrong, in every packet. *)
Theorem C116_refuted : forall zone now dur ops m, built_at zone now dur ops m ->
  (let s := whole (now + dur) in
   zone s <> china -> (forall x, m <> MSmgp x) -> forallb (fun o => negb (sets_valid o)) ops = true -> this_century (zone s) s ->
   exists r, time_read (valid_field m) = Some r /\ r <> s) /\
  (forall ops1 ops2 zone' t, ops = ops1 ++ MtAtTime zone' t :: ops2 -> forallb (fun o => negb (sets_at o)) ops2 = true ->
   let s := whole t in zone' s <> china -> this_century (zone' s) s ->
   exists r, time_read (at_field m) = Some r /\ r <> s).
Proof.
  intros zone now dur ops m B. destruct (C116_read zone now dur ops m B) as [H1 H2]. cbv zeta in H1, H2. split.
  - intros s Z1 NS NV TC. fold s in H1. destruct (H1 NS NV TC) as [_ ->]. eexists. split; [reflexivity|]. lia.
  - intros ops1 ops2 zone' t EO HO s Z1 TC. specialize (H2 ops1 ops2 zone' t EO HO). fold s in H2.
    destruct (H2 TC) as [_ ->]. eexists. split; [reflexivity|]. lia.
Qed.
(** West of China a message whose validity is not longer than the difference of the clocks is no
    longer valid when it is sent: with clocks on UTC, up to eight hours. *)
Theorem C116_refuted_over : forall zone now dur ops m, built_at zone now dur ops m ->
  let s := whole (now + dur) in
  0 <= dur -> dur <= 1000000000 * (china - zone s) -> (forall x, m <> MSmgp x) -> forallb (fun o => negb (sets_valid o)) ops = true ->
  this_century (zone s) s -> exists r, time_read (valid_field m) = Some r /\ r <= whole now.
Proof.
  intros zone now dur ops m B s D0 D1 NS NV TC. destruct (C116_read zone now dur ops m B) as [H1 _]. cbv zeta in H1. fold s in H1.
  destruct (H1 NS NV TC) as [_ ->]. eexists. split; [reflexivity|].
  assert (L : s <= whole now + (china - zone s)); [|lia]. unfold s at 1, whole.
  replace (now / 1000000000 + (china - zone s)) with ((now + (china - zone s) * 1000000000) / 1000000000) by (apply Z.div_add; lia).
  apply Z.div_le_mono; lia.
Qed.
(** SMGP drops the configured validity and any option: the message is valid until the second it is
    built in (moved by the difference of the clocks). *)
Theorem C116_refuted_smgp : forall zone now dur ops x, built_at zone now dur ops (MSmgp x) ->
  let s := whole now in this_century (zone s) s ->
  fits 17 (ms_validTime x) /\ time_read (ms_validTime x) = Some (s + (zone s - china)) /\
  (zone s <= china -> exists r, time_read (ms_validTime x) = Some r /\ r <= s).
Proof.
  intros zone now dur ops x B s TC. remember (MSmgp x) as m eqn:Em.
  destruct B as [? ? ? ? ? ? ? ? E I|? ? ? ? ? ? ? E I|gbe ac phones content seq g nxt msgs y E I]; try discriminate.
  injection Em as ->. destruct (smgp_fields _ _ _ _ _ _ _ _ _ _ _ E I) as [-> _]. unfold smgp_valid_until.
  split; [apply FormatTime_fits|]. pose proof (FormatTime_read zone now TC) as F. split; [exact F|].
  intros L. change second_of with whole in F. fold s in F. rewrite F. eexists. split; [reflexivity|]. lia.
Qed.

Print Assumptions C116_read.
Print Assumptions C116_partial.
Print Assumptions C116_refuted.
Print Assumptions C116_refuted_over.
Print Assumptions C116_refuted_smgp.
(** 2026-11-16 19:00:00 UTC; two hours of validity; a delivery time an hour from now. *)
Definition now_case : Z := 1794855600 * 1000000000 + 5.
Definition hours (n : Z) : Z := n * 3600 * 1000000000.
Definition build_case (east dur : Z) : res (list submit) :=
  NewSubmit PropCmpp.ac_demo [[49; 51; 56]] [72; 105] 9 [OSpSubNo [49]; MtAtTime (fun _ => east) (now_case + hours 1)] (valid_until (fun _ => east) now_case dur) 1 (fun i => i).
Definition times_case (r : res (list submit)) : res (list (option Z * option Z)) :=
  match r with Ok l => Ok (map (fun m => (time_read (sb_validTime m), time_read (sb_atTime m))) l) | Err e => Err e | Panic => Panic end.
Example C116_case :
  times_case (build_case 28800 (hours 2)) = Ok [(Some (1794855600 + 7200), Some (1794855600 + 3600))] /\
  times_case (build_case 0 (hours 2)) = Ok [(Some (1794855600 - 21600), Some (1794855600 - 25200))] /\
  match smgp_NewSubmit Some PropSmgp.sm_ac [[49; 51; 56]] [72; 105] 9 [OValidTime [49]] (smgp_valid_until (fun _ => 28800) now_case (hours 2)) 1 (fun i => i) with
  | Ok [m] => time_read (ms_validTime m) | _ => None end = Some 1794855600 /\
  this_century 28800 1794855600 /\ this_century 0 1794855600 /\ instant 2026 11 16 19 0 0 0 = 1794855600.
Proof.
  split; [vm_compute; reflexivity|]. split; [vm_compute; reflexivity|]. split; [vm_compute; reflexivity|].
  vm_compute. repeat split; try reflexivity; discriminate.
Qed.
Opaque before_year day_number civil_of.

(** ** The calendar date of a day is unique *)
Lemma month_sum (y m : Z) : 1 <= m <= 12 -> let s := sum (firstn (Z.to_nat (m - 1)) (months y)) in
  nth (Z.to_nat (m - 1)) [0; 31; 59; 90; 120; 151; 181; 212; 243; 273; 304; 334] 0 <= s <=
  nth (Z.to_nat (m - 1)) [0; 31; 59; 90; 120; 151; 181; 212; 243; 273; 304; 334] 0 + (if leapb y then 1 else 0) /\
  (m <= 2 -> s = nth (Z.to_nat (m - 1)) [0; 31; 59; 90; 120; 151; 181; 212; 243; 273; 304; 334] 0).
Proof.
  intros H. assert (m = 1 \/ m = 2 \/ m = 3 \/ m = 4 \/ m = 5 \/ m = 6 \/ m = 7 \/ m = 8 \/ m = 9 \/ m = 10 \/ m = 11 \/ m = 12) as X by lia.
  cbv zeta. unfold months. destruct (leapb y); repeat (destruct X as [X|X]); subst m; clear H; vm_compute; (split; [split|]; [discriminate|discriminate|]); intros Q; try reflexivity; destruct (Q eq_refl).
Qed.
Lemma next_month (y m m' : Z) : 1 <= m -> m < m' -> m' <= 12 ->
  sum (firstn (Z.to_nat (m - 1)) (months y)) + nth (Z.to_nat (m - 1)) (months y) 0 <= sum (firstn (Z.to_nat (m' - 1)) (months y)).
Proof.
  intros H1 H2 H3.
  assert (A : forall l n k, Forall (fun x => 0 <= x) l -> (n < k)%nat -> (k <= length l)%nat -> sum (firstn n l) + nth n l 0 <= sum (firstn k l)).
  { induction l as [|a l IH]; intros n k F L1 L2; [cbn in L2; lia|]. destruct k as [|k]; [lia|]. apply Forall_cons_iff in F as [F1 F2]. cbn [firstn sum fold_right].
    destruct n as [|n]; cbn [firstn sum fold_right nth].
    - assert (0 <= sum (firstn k l)); [|unfold sum in *; lia]. clear - F2. revert k. induction F2 as [|x l H F IH]; intros [|k]; cbn; try lia. specialize (IH k). unfold sum in IH. lia.
    - cbn [length] in L2. specialize (IH n k F2 ltac:(lia) ltac:(lia)). unfold sum in *. lia. }
  apply A; [unfold months; destruct (leapb y); repeat constructor; lia|lia|]. unfold months. cbn [length]. lia.
Qed.
Lemma before_year_step y : before_year (y + 1) = before_year y + (if leapb y then 366 else 365).
Proof. rewrite year_length. f_equal. unfold months. destruct (leapb y); reflexivity. Qed.
Lemma before_year_next y1 y2 : y1 < y2 -> before_year (y1 + 1) <= before_year y2.
Proof.
  intros H. destruct (Z.eq_dec (y1 + 1) y2) as [E|E]; [rewrite E; apply Z.le_refl|].
  pose proof (before_year_lt (y1 + 1) y2 ltac:(lia)) as X. set (a := before_year (y1 + 1)) in *. set (b := before_year y2) in *. clearbody a b. lia.
Qed.
Lemma date_unique y1 m1 d1 y2 m2 d2 : date_ok y1 m1 d1 -> date_ok y2 m2 d2 -> day_number y1 m1 d1 = day_number y2 m2 d2 ->
  y1 = y2 /\ m1 = m2 /\ d1 = d2.
Proof.
  assert (G : forall y1 m1 d1 y2 m2 d2, date_ok y1 m1 d1 -> date_ok y2 m2 d2 -> day_number y1 m1 d1 = day_number y2 m2 d2 -> ~ y1 < y2).
  { clear. intros y1 m1 d1 y2 m2 d2 A B E L. pose proof (day_in_year _ _ _ A) as X. pose proof (day_in_year _ _ _ B) as Y. pose proof (before_year_next _ _ L) as N.
    set (a := day_number y1 m1 d1) in *. set (b := day_number y2 m2 d2) in *. set (c := before_year (y1 + 1)) in *. set (d := before_year y2) in *.
    set (e := before_year y1) in *. set (f := before_year (y2 + 1)) in *. clearbody a b c d e f. lia. }
  intros A B E. assert (y1 = y2).
  { pose proof (G _ _ _ _ _ _ A B E). pose proof (G _ _ _ _ _ _ B A (eq_sym E)). lia. }
  subst y2. split; [reflexivity|]. Transparent day_number. unfold day_number in E. Opaque day_number. destruct A as [A1 A2], B as [B1 B2].
  set (by0 := before_year y1) in *. clearbody by0.
  assert (m1 = m2).
  { destruct (Z_lt_ge_dec m1 m2) as [L|]; [pose proof (next_month y1 m1 m2 ltac:(lia) L ltac:(lia)); lia|].
    destruct (Z_lt_ge_dec m2 m1) as [L|]; [pose proof (next_month y1 m2 m1 ltac:(lia) L ltac:(lia)); lia|]. lia. }
  subst m2. split; [reflexivity|]. lia.
Qed.
Lemma year_apart y1 y2 m d : 1 <= m <= 12 -> y1 < y2 -> day_number y1 m d + 365 <= day_number y2 m d.
Proof.
  intros M L. pose proof (before_year_next _ _ L) as N. rewrite before_year_step in N. pose proof (month_sum y1 m M) as [S1 _]. pose proof (month_sum y2 m M) as [S2 _].
  Transparent day_number. unfold day_number. Opaque day_number. set (a := before_year y1) in *. set (b := before_year y2) in *. clearbody a b.
  destruct (leapb y1), (leapb y2); lia.
Qed.
(** The same date a year later is 365 or 366 days later, unless it is the 29th of February. *)
Lemma year_later y m d : date_ok y m d -> ~ (m = 2 /\ d = 29) ->
  date_ok (y + 1) m d /\ (day_number (y + 1) m d = day_number y m d + 365 \/ day_number (y + 1) m d = day_number y m d + 366).
Proof.
  intros [A1 A2] NF. split.
  - split; [exact A1|]. assert (m = 1 \/ m = 2 \/ m = 3 \/ m = 4 \/ m = 5 \/ m = 6 \/ m = 7 \/ m = 8 \/ m = 9 \/ m = 10 \/ m = 11 \/ m = 12) as X by lia.
    assert (F : forall z, nth (Z.to_nat (m - 1)) (months z) 0 = if m =? 2 then if leapb z then 29 else 28 else nth (Z.to_nat (m - 1)) [31; 28; 31; 30; 31; 30; 31; 31; 30; 31; 30; 31] 0).
    { intros z. unfold months. repeat (destruct X as [X|X]); subst m; reflexivity. }
    rewrite F in A2 |- *. destruct (m =? 2) eqn:E; [|exact A2]. apply Z.eqb_eq in E. destruct (leapb y), (leapb (y + 1)); lia.
  - pose proof (month_sum y m A1) as (S1 & S1'). pose proof (month_sum (y + 1) m A1) as (S2 & S2').
    assert (NL : leapb y = true -> leapb (y + 1) = true -> False).
    { unfold leapb. rewrite !andb_true_iff, !Z.eqb_eq. intros [P _] [Q _]. pose proof (Z.div_mod y 4 ltac:(lia)). pose proof (Z.div_mod (y + 1) 4 ltac:(lia)). lia. }
    assert (F : forall z, 2 < m -> sum (firstn (Z.to_nat (m - 1)) (months z)) = nth (Z.to_nat (m - 1)) [0; 31; 59; 90; 120; 151; 181; 212; 243; 273; 304; 334] 0 + (if leapb z then 1 else 0)).
    { intros z G. assert (m = 3 \/ m = 4 \/ m = 5 \/ m = 6 \/ m = 7 \/ m = 8 \/ m = 9 \/ m = 10 \/ m = 11 \/ m = 12) as X by lia.
      unfold months. destruct (leapb z); repeat (destruct X as [X|X]); subst m; reflexivity. }
    Transparent day_number. unfold day_number. Opaque day_number. rewrite before_year_step. set (a := before_year y) in *. clearbody a.
    destruct (Z_lt_ge_dec 2 m) as [G|G].
    + rewrite !F by exact G. destruct (leapb y), (leapb (y + 1)); try (exfalso; apply NL; reflexivity); lia.
    + rewrite S1', S2' by lia. destruct (leapb y); lia.
Qed.

(** ** C117 *)
Lemma civil_unique zone t y m d hh mm ss : let s := second_of t in
  date_ok y m d -> 0 <= hh < 24 -> 0 <= mm < 60 -> 0 <= ss < 60 -> instant y m d hh mm ss (zone s) = s ->
  civil_of zone t = Civil y m d hh mm ss.
Proof.
  intros s D H1 H2 H3 E. destruct (civil_ok zone t) as (D' & B1 & B2 & B3 & E'). fold s in E'.
  destruct (civil_of zone t) as [y' m' d' h' n' q']. cbn [cv_year cv_month cv_day cv_hour cv_min cv_sec] in *.
  unfold instant in *.
  assert (X : day_number y' m' d' = day_number y m d /\ 3600 * h' + 60 * n' + q' = 3600 * hh + 60 * mm + ss).
  { set (a := day_number y' m' d') in *. set (b := day_number y m d) in *. set (c := day_number 1970 1 1) in *. clearbody a b c. lia. }
  destruct X as [X1 X2]. destruct (date_unique _ _ _ _ _ _ D' D X1) as (-> & -> & ->). f_equal; lia.
Qed.
Definition stamp_value (c : civil) : Z := 100000000 * cv_month c + 1000000 * cv_day c + 10000 * cv_hour c + 100 * cv_min c + cv_sec c.
Lemma Format10_digits zone t : PropCmpp.ten_digits (Format10 zone t) (stamp_value (civil_of zone t)).
Proof.
  destruct (civil_ok zone t) as (D & B1 & B2 & B3 & _). pose proof (date_small _ _ _ D) as [M K].
  unfold PropCmpp.ten_digits, Format10. set (c := civil_of zone t) in *. clearbody c. split; [reflexivity|]. split.
  - repeat (apply Forall_app; split); apply two_bytes; lia.
  - unfold dec_value, two, stamp_value. cbn [app fold_left].
    pose proof (Z.div_mod (cv_month c) 10 ltac:(lia)). pose proof (Z.div_mod (cv_day c) 10 ltac:(lia)). pose proof (Z.div_mod (cv_hour c) 10 ltac:(lia)).
    pose proof (Z.div_mod (cv_min c) 10 ltac:(lia)). pose proof (Z.div_mod (cv_sec c) 10 ltac:(lia)). lia.
Qed.
Lemma Atoi_dec l : Atoi l = dec_value l.
Proof. unfold Atoi, dec_value. generalize 0. induction l as [|c l IH]; intros v; [reflexivity|]. cbn [fold_left]. rewrite IH. f_equal. lia. Qed.
Lemma stamp_bound zone t : 0 <= stamp_value (civil_of zone t) <= 1231235959.
Proof.
  destruct (civil_ok zone t) as (D & B1 & B2 & B3 & _). pose proof (date_small _ _ _ D) as [M K]. unfold stamp_value. lia.
Qed.
Lemma Now_eq zone t : Now zone t = (Format10 zone t, stamp_value (civil_of zone t)).
Proof.
  unfold Now. rewrite Atoi_dec. destruct (Format10_digits zone t) as (_ & _ & ->). pose proof (stamp_bound zone t). unfold u32. rewrite Z.mod_small by lia. reflexivity.
Qed.
(** The stamp of a login made at any instant in any zone is the month, day, hour, minute and second
    the clock shows, as ten digits and as the number they denote. *)
Theorem C117_stamp : forall zone t ts n, Now zone t = (ts, n) ->
  PropCmpp.ten_digits ts n /\ 0 <= n <= 1231235959 /\ TimeStamp2Str n = ts /\
  exists y mo d hh mi ss, date_ok y mo d /\ 0 <= hh < 24 /\ 0 <= mi < 60 /\ 0 <= ss < 60 /\
    instant y mo d hh mi ss (zone (whole t)) = whole t /\
    n = 100000000 * mo + 1000000 * d + 10000 * hh + 100 * mi + ss.
Proof.
  intros zone t ts n E. rewrite Now_eq in E. injection E as <- <-. pose proof (Format10_digits zone t) as F. pose proof (stamp_bound zone t) as B.
  split; [exact F|]. split; [exact B|]. split; [symmetry; apply PropCmpp.ten_digits_unique; [lia|exact F]|].
  destruct (civil_ok zone t) as (D & B1 & B2 & B3 & Q). do 6 eexists. split; [exact D|]. split; [exact B1|]. split; [exact B2|]. split; [exact B3|].
  split; [exact Q|reflexivity].
Qed.
(** Whenever it is made, a login for the account the server holds is accepted. *)
Theorem C117_accepted : forall md5 zone t ts n seq, (forall x, zlen (md5 x) = 16) -> Now zone t = (ts, n) -> 0 <= seq < 2 ^ 32 ->
  (forall ac d, ac_wf ac ->
     (f <- Connect_Encode (NewConnect md5 ac seq ts n) ;; b <- slice f 12 39 ;; Connect_Decode seq b) = Ok d ->
     fst (Connect_Check md5 d (Some ac)) = 0) /\
  (forall ac find, is_byte (ac_Version ac) -> zlen (ac_ClientId ac) = 8 -> find (ac_ClientId ac) = Some ac ->
     PropSmgp.login_verdict md5 ac seq ts n find = Ok 0).
Proof.
  intros md5 zone t ts n seq Hm E Hs. destruct (C117_stamp zone t ts n E) as (F & B & _). assert (B' : 0 <= n < 2 ^ 32) by lia. split.
  - intros ac d W Q. exact (PropCmpp.C30_client_accepted md5 ac seq ts n d Hm W Hs B' F Q).
  - intros ac find V L Q. destruct (PropSmgp.C42_accept_partial md5 ac seq ts n find Hm V Hs B' F L) as (v & E1 & _ & E2). rewrite E1, (E2 Q). reflexivity.
Qed.
(** On clocks that are not put forward or back, logins in different seconds less than 365 days
    apart carry different stamps. *)
Theorem C117_partial : forall zone t1 t2, zone (whole t1) = zone (whole t2) -> whole t1 <> whole t2 ->
  Z.abs (whole t1 - whole t2) < 365 * 86400 ->
  snd (Now zone t1) <> snd (Now zone t2) /\ fst (Now zone t1) <> fst (Now zone t2).
Proof.
  assert (G : forall zone t1 t2, zone (whole t1) = zone (whole t2) -> whole t1 <> whole t2 -> Z.abs (whole t1 - whole t2) < 365 * 86400 ->
    stamp_value (civil_of zone t1) <> stamp_value (civil_of zone t2)).
  { intros zone t1 t2 EZ N L E. destruct (civil_ok zone t1) as (D & B1 & B2 & B3 & Q). destruct (civil_ok zone t2) as (D' & B1' & B2' & B3' & Q').
    pose proof (date_small _ _ _ D) as [M K]. pose proof (date_small _ _ _ D') as [M' K'].
    change second_of with whole in *. unfold stamp_value in E. rewrite <- EZ in Q'.
    destruct (civil_of zone t1) as [y m d h n q], (civil_of zone t2) as [y' m' d' h' n' q']. cbn [cv_year cv_month cv_day cv_hour cv_min cv_sec] in *.
    assert (m' = m /\ d' = d /\ h' = h /\ n' = n /\ q' = q) as (-> & -> & -> & -> & ->) by lia. unfold instant in Q, Q'.
    assert (X : day_number y m d + 365 <= day_number y' m d \/ day_number y' m d + 365 <= day_number y m d \/ y = y').
    { destruct (Z_lt_ge_dec y y') as [L1|]; [left; apply year_apart; assumption|]. destruct (Z_lt_ge_dec y' y) as [L1|]; [right; left; apply year_apart; assumption|].
      right; right; lia. }
    destruct X as [X|[X| <-]].
    - set (a := day_number y m d) in *. set (b := day_number y' m d) in *. set (c := day_number 1970 1 1) in *. clearbody a b c. lia.
    - set (a := day_number y m d) in *. set (b := day_number y' m d) in *. set (c := day_number 1970 1 1) in *. clearbody a b c. lia.
    - apply N. rewrite <- Q, <- Q'. reflexivity. }
  intros zone t1 t2 EZ N L. rewrite !Now_eq. cbn [fst snd]. specialize (G zone t1 t2 EZ N L). split; [exact G|]. intros F. apply G.
  destruct (Format10_digits zone t1) as (_ & _ & <-). destruct (Format10_digits zone t2) as (_ & _ & <-). rewrite F. reflexivity.
Qed.
(** A year later (365 or 366 days) the stamp comes again, for every instant that is not on a 29th
    of February; with the same sequence number the whole login is the same packet. *)
Theorem C117_refuted : forall zone t, (forall s, zone s = zone (whole t)) ->
  (forall y hh mi ss, 0 <= hh < 24 -> 0 <= mi < 60 -> 0 <= ss < 60 -> date_ok y 2 29 -> instant y 2 29 hh mi ss (zone (whole t)) <> whole t) ->
  exists days, (days = 365 \/ days = 366) /\ Now zone (t + days * 86400 * 1000000000) = Now zone t.
Proof.
  intros zone t EZ NF. destruct (civil_ok zone t) as (D & B1 & B2 & B3 & Q). change second_of with whole in Q.
  remember (civil_of zone t) as c eqn:Ec. destruct c as [y m d h n q]. cbn [cv_year cv_month cv_day cv_hour cv_min cv_sec] in *.
  assert (NF' : ~ (m = 2 /\ d = 29)) by (intros [-> ->]; exact (NF y h n q B1 B2 B3 D Q)).
  destruct (year_later y m d D NF') as [D1 D2].
  assert (G : exists days, (days = 365 \/ days = 366) /\ day_number (y + 1) m d = day_number y m d + days) by (destruct D2 as [D2|D2]; eauto).
  destruct G as (days & GD & GE). exists days. split; [exact GD|].
  assert (W : second_of (t + days * 86400 * 1000000000) = whole t + days * 86400) by (unfold second_of, whole; apply Z.div_add; lia).
  assert (C : civil_of zone (t + days * 86400 * 1000000000) = Civil (y + 1) m d h n q).
  { apply civil_unique; [exact D1|exact B1|exact B2|exact B3|]. rewrite W, (EZ (whole t + days * 86400)). unfold instant in *. rewrite GE.
    set (a := day_number y m d) in *. set (b := day_number 1970 1 1) in *. clearbody a b. lia. }
  unfold Now, Format10. rewrite C, <- Ec. reflexivity.
Qed.
(** After clocks are put back the stamps of the time before come again. *)
Theorem C117_refuted_back : forall zone t back, 0 < back -> zone (whole t + back) = zone (whole t) - back ->
  Now zone (t + back * 1000000000) = Now zone t /\ whole (t + back * 1000000000) <> whole t.
Proof.
  intros zone t back P EZ.
  assert (W : second_of (t + back * 1000000000) = whole t + back) by (unfold second_of, whole; apply Z.div_add; lia).
  destruct (civil_ok zone t) as (D & B1 & B2 & B3 & Q). change second_of with whole in Q.
  assert (C : civil_of zone (t + back * 1000000000) = civil_of zone t).
  { remember (civil_of zone t) as c eqn:Ec. destruct c as [y m d h n q]. cbn [cv_year cv_month cv_day cv_hour cv_min cv_sec] in *.
    apply civil_unique; [exact D|exact B1|exact B2|exact B3|]. rewrite W, EZ. unfold instant in *. lia. }
  split; [unfold Now, Format10; rewrite C; reflexivity|]. change (second_of (t + back * 1000000000) <> whole t). lia.
Qed.
Print Assumptions C117_stamp.
Print Assumptions C117_accepted.
Print Assumptions C117_partial.
Print Assumptions C117_refuted.
Print Assumptions C117_refuted_back.
(** 03:00:00 on 17 November in China; the same a year later; a second later; and in Berlin on the night clocks are put back
    (2026-10-25 01:00:00 UTC). *)
Definition berlin (s : Z) : Z := if s <? 1792890000 then 7200 else 3600.
Example C117_case :
  Now (fun _ => 28800) (1794855600 * 1000000000) = ([49; 49; 49; 55; 48; 51; 48; 48; 48; 48], 1117030000) /\
  Now (fun _ => 28800) ((1794855600 + 365 * 86400) * 1000000000) = Now (fun _ => 28800) (1794855600 * 1000000000) /\
  Now (fun _ => 28800) ((1794855600 + 1) * 1000000000) <> Now (fun _ => 28800) (1794855600 * 1000000000) /\
  instant 2026 10 25 1 0 0 0 = 1792890000 /\ berlin (1792889000 + 3600) = berlin 1792889000 - 3600 /\
  Now berlin (1792889000 * 1000000000) = Now berlin ((1792889000 + 3600) * 1000000000).
Proof.
  Transparent before_year day_number civil_of.
  vm_compute. repeat split; try reflexivity; discriminate.
Qed.

(** * PropDone: property C123 (the times in a delivery report). *)
From Verif Require Import Base SpecText UtilsModel OptionsModel SpecWire CmppModel CmppProofs PropCmpp SmgpModel SpecSmgp SmgpProofs
  TimeModel SpecTime TimeProofs.
From Verif Require PropCmpp2 PropSmgp PropTime PropReportState.
Local Notation whole := PropTime.whole.
Local Notation over_wire := PropCmpp2.over_wire.
Local Notation this_century := PropTime.this_century.

(** ** Model *)
(** t.Format("0601021504") *)
Definition FormatMin (zone : Z -> Z) (t : Z) : bytes :=
  let c := civil_of zone t in
  two (Z.max 0 (cv_year c) mod 100) ++ two (cv_month c) ++ two (cv_day c) ++ two (cv_hour c) ++ two (cv_min c).
(** t.Format("20060102150405"); simplified: the years 0 to 9999. *)
Definition Format14 (zone : Z -> Z) (t : Z) : bytes :=
  let c := civil_of zone t in
  two (cv_year c / 100) ++ two (cv_year c mod 100) ++ two (cv_month c) ++ two (cv_day c) ++ two (cv_hour c) ++ two (cv_min c) ++ two (cv_sec c).
(** codec/cmpp/submit.go:262-284 ToDeliveryReport called with the clock at [t1] (line 279) and [t2] (line 280) *)
Definition cmpp_report_at (zone : Z -> Z) (s : submit) (msgId nseq nid nrep t1 t2 : Z) : delivery :=
  ToDeliveryReport s msgId nseq nid nrep (FormatMin zone t1) (FormatMin zone (t2 + 10 * 1000000000)).
(** codec/smgp/deliver.go:71-86 NewDeliveryReport and report.go:21-30 NewReport: the clock at [t1] (report.go:25),
    [t2] (26), [t3] (29), [t0] (deliver.go:81) *)
Definition smgp_report_at (zone : Z -> Z) (ac : authconf) (mt : msubmit) (seq : Z) (msgId id : bytes) (t0 t1 t2 t3 : Z) : res mdeliver :=
  smgp_NewDeliveryReport ac mt seq msgId id (Format14 zone t0) (second_of t3) (FormatMin zone t1) (FormatMin zone (t2 + 60 * 1000000000)).

(** ** Specification *)
(** YYMMDDhhmm, a minute of the 21st century on clocks [east] seconds east of UTC: the instant, in seconds,
    at which it begins. *)
Definition minute_read (east : Z) (s : bytes) : option Z :=
  match s with
  | [y1; y2; o1; o2; d1; d2; h1; h2; m1; m2] =>
    match num2 y1 y2, num2 o1 o2, num2 d1 d2, num2 h1 h2, num2 m1 m2 with
    | Some y, Some o, Some d, Some h, Some m => Some (instant (2000 + y) o d h m 0 east)
    | _, _, _, _, _ => None
    end
  | _ => None
  end.
(** YYYYMMDDhhmmss *)
Definition second_read (east : Z) (s : bytes) : option Z :=
  match s with
  | [c1; c2; y1; y2; o1; o2; d1; d2; h1; h2; m1; m2; s1; s2] =>
    match num2 c1 c2, num2 y1 y2, num2 o1 o2, num2 d1 d2, num2 h1 h2, num2 m1 m2, num2 s1 s2 with
    | Some c, Some y, Some o, Some d, Some h, Some m, Some sec => Some (instant (100 * c + y) o d h m sec east)
    | _, _, _, _, _, _, _ => None
    end
  | _ => None
  end.
(** Where the minute of the second [s] begins on these clocks. *)
Definition minute_of (east s : Z) : Z := s - (s + east) mod 60.
Definition seconds (n : Z) : Z := n * 10 ^ 9.

Opaque before_year day_number civil_of.

(** ** Proofs *)
Lemma digits_of zone t : let c := civil_of zone t in
  0 <= Z.max 0 (cv_year c) mod 100 < 100 /\ 0 <= cv_month c < 100 /\ 0 <= cv_day c < 100 /\ 0 <= cv_hour c < 100 /\ 0 <= cv_min c < 100 /\ 0 <= cv_sec c < 100.
Proof.
  destruct (civil_ok zone t) as (D & B1 & B2 & B3 & _). pose proof (date_small _ _ _ D) as [M K]. cbv zeta. set (c := civil_of zone t) in *. clearbody c.
  pose proof (Z.mod_pos_bound (Z.max 0 (cv_year c)) 100 ltac:(lia)). lia.
Qed.
Lemma FormatMin_fits zone t : fits 10 (FormatMin zone t) /\ zlen (FormatMin zone t) = 10.
Proof.
  pose proof (digits_of zone t) as (A & B & C & D & E & _). cbv zeta in *. split; [|reflexivity]. split; [|cbn; lia]. unfold FormatMin. set (c := civil_of zone t) in *. clearbody c.
  assert (G : Forall (fun b => b <> 0) (two (Z.max 0 (cv_year c) mod 100) ++ two (cv_month c) ++ two (cv_day c) ++ two (cv_hour c) ++ two (cv_min c))).
  { repeat (apply Forall_app; split); (eapply Forall_impl; [|apply PropTime.two_bytes; assumption]); cbn beta; intros; lia. }
  intros I. rewrite Forall_forall in G. exact (G 0 I eq_refl).
Qed.
Lemma FormatMin_read zone t : this_century (zone (whole t)) (whole t) -> minute_read (zone (whole t)) (FormatMin zone t) = Some (minute_of (zone (whole t)) (whole t)).
Proof.
  intros H. pose proof (PropTime.century_year zone t H) as Y. destruct (civil_ok zone t) as (D & B1 & B2 & B3 & E).
  pose proof (date_small _ _ _ D) as [M K]. unfold FormatMin. set (c := civil_of zone t) in *. clearbody c. rewrite Z.max_r by lia.
  assert (Yr : cv_year c mod 100 = cv_year c - 2000) by (symmetry; apply (Z.mod_unique_pos _ _ 20); lia). rewrite Yr.
  unfold two. cbn [app]. unfold minute_read. rewrite !num2_two by lia. f_equal. replace (2000 + (cv_year c - 2000)) with (cv_year c) by lia.
  unfold minute_of, instant in *. change (second_of t) with (whole t) in E. set (e := zone (whole t)) in *. clearbody e. set (s := whole t) in *. clearbody s.
  set (n := day_number (cv_year c) (cv_month c) (cv_day c) - day_number 1970 1 1) in *. clearbody n.
  assert (X : (s + e) mod 60 = cv_sec c) by (symmetry; apply (Z.mod_unique_pos _ _ (1440 * n + 60 * cv_hour c + cv_min c)); lia). rewrite X. lia.
Qed.
Lemma Format14_read zone t : this_century (zone (whole t)) (whole t) -> second_read (zone (whole t)) (Format14 zone t) = Some (whole t) /\ fits 14 (Format14 zone t).
Proof.
  intros H. pose proof (PropTime.century_year zone t H) as Y. destruct (civil_ok zone t) as (D & B1 & B2 & B3 & E).
  pose proof (date_small _ _ _ D) as [M K]. unfold Format14. set (c := civil_of zone t) in *. clearbody c.
  assert (Yr : cv_year c mod 100 = cv_year c - 2000) by (symmetry; apply (Z.mod_unique_pos _ _ 20); lia).
  assert (Yc : cv_year c / 100 = 20) by (symmetry; apply (Z.div_unique_pos _ _ _ (cv_year c - 2000)); lia). rewrite Yr, Yc. split.
  - unfold two. cbn [app]. unfold second_read. rewrite !num2_two by lia. f_equal. replace (100 * 20 + (cv_year c - 2000)) with (cv_year c) by lia. exact E.
  - split; [|cbn; lia].
    assert (G : Forall (fun b => b <> 0) (two 20 ++ two (cv_year c - 2000) ++ two (cv_month c) ++ two (cv_day c) ++ two (cv_hour c) ++ two (cv_min c) ++ two (cv_sec c))).
    { repeat (apply Forall_app; split); (eapply Forall_impl; [|apply PropTime.two_bytes; lia]); cbn beta; intros; lia. }
    intros I. rewrite Forall_forall in G. exact (G 0 I eq_refl).
Qed.
Lemma whole_add t n : whole (t + seconds n) = whole t + n.
Proof. unfold seconds. change (10 ^ 9) with 1000000000. unfold PropTime.whole. apply Z.div_add. lia. Qed.
Lemma minute_mono east a b : a <= b -> minute_of east a <= minute_of east b.
Proof.
  intros H. unfold minute_of. pose proof (Z.div_mod (a + east) 60 ltac:(lia)). pose proof (Z.div_mod (b + east) 60 ltac:(lia)).
  pose proof (Z.div_le_mono (a + east) (b + east) 60 ltac:(lia) ltac:(lia)). lia.
Qed.
Lemma minute_near east a : minute_of east a <= a < minute_of east a + 60.
Proof. unfold minute_of. pose proof (Z.mod_pos_bound (a + east) 60 ltac:(lia)). lia. Qed.
Lemma minute_next east a : minute_of east (a + 60) = minute_of east a + 60.
Proof. unfold minute_of. replace (a + 60 + east) with (a + east + 1 * 60) by lia. rewrite Z.mod_add by lia. lia. Qed.
Lemma whole_mono a b : a <= b -> whole a <= whole b.
Proof. intros H. apply Z.div_le_mono; lia. Qed.

(** CMPP: every report built for a message and sent, whatever the message, arrives with two times that read back
    as the minute it was made and the minute ten seconds later. *)
Theorem C123_cmpp_partial : forall zone s msgId nseq nid nrep t1 t2 g seq',
  is_byte (sb_version s) -> is_byte (sb_destTerminalType s) -> 0 <= msgId < 2 ^ 64 -> fits 10 (sb_serviceId s) -> fits 21 (sb_destTerminalId s) ->
  this_century (zone (whole t1)) (whole t1) -> this_century (zone (whole t2 + 10)) (whole t2 + 10) ->
  exists e r, over_wire (Delivery_Encode g (cmpp_report_at zone s msgId nseq nid nrep t1 t2)) (Delivery_Decode (sb_version s) seq') = Ok e /\
    dl_report e = Some r /\
    minute_read (zone (whole t1)) (rp_submitTime r) = Some (minute_of (zone (whole t1)) (whole t1)) /\
    minute_read (zone (whole t2 + 10)) (rp_doneTime r) = Some (minute_of (zone (whole t2 + 10)) (whole t2 + 10)).
Proof.
  intros zone s msgId nseq nid nrep t1 t2 g seq' Hv Hd Hm Fs Fd H1 H2. unfold cmpp_report_at. change (10 * 1000000000) with (seconds 10).
  destruct (PropCmpp2.C37_report s msgId nseq nid nrep (FormatMin zone t1) (FormatMin zone (t2 + seconds 10)) g seq' Hv Hd Hm Fs Fd
    (proj1 (FormatMin_fits zone t1)) (proj1 (FormatMin_fits zone (t2 + seconds 10)))) as (e & r & A & B & _ & _ & _ & _ & E1 & E2 & _).
  exists e, r. split; [exact A|]. split; [exact B|]. rewrite E1, E2. split; [apply FormatMin_read; auto|].
  pose proof (FormatMin_read zone (t2 + seconds 10)) as F. rewrite !whole_add in F. exact (F H2).
Qed.
(** SMGP: so does a report there, with the minute after; and the time it was handed on is to the second. *)
Theorem C123_smgp_partial : forall zone gbd ac mt seq msgId id t0 t1 t2 t3 p rest ver seq',
  ms_destTermID mt = p :: rest -> 0 <= seq < 2 ^ 32 -> zlen msgId = 10 -> zlen id = 10 -> fits 21 p -> fits 21 (ms_srcTermID mt) -> 0 <= t3 ->
  this_century (zone (whole t0)) (whole t0) -> this_century (zone (whole t1)) (whole t1) -> this_century (zone (whole t2 + 60)) (whole t2 + 60) ->
  exists d d' r, smgp_report_at zone ac mt seq msgId id t0 t1 t2 t3 = Ok d /\
    over_wire (MDeliver_Encode d) (MDeliver_Decode gbd ver seq') = Ok d' /\ md_report d' = Some r /\
    second_read (zone (whole t0)) (md_recvTime d') = Some (whole t0) /\
    minute_read (zone (whole t1)) (mp_submitDate r) = Some (minute_of (zone (whole t1)) (whole t1)) /\
    minute_read (zone (whole t2 + 60)) (mp_doneDate r) = Some (minute_of (zone (whole t2 + 60)) (whole t2 + 60)).
Proof.
  intros zone gbd ac mt seq msgId id t0 t1 t2 t3 p rest ver seq' Hp Hs Hm Hi Fp Fs H3 C0 C1 C2.
  destruct (Format14_read zone t0 C0) as [R0 F0]. unfold smgp_report_at. change (60 * 1000000000) with (seconds 60).
  set (d1 := FormatMin zone t1). set (d2 := FormatMin zone (t2 + seconds 60)).
  assert (S3 : 0 <= second_of t3) by (apply Z.div_pos; lia).
  destruct (PropReportState.C80_smgp gbd ac mt seq msgId id (Format14 zone t0) (second_of t3) d1 d2 p rest ver seq' Hp Hs Hm Hi F0
    (proj2 (FormatMin_fits zone t1)) (proj2 (FormatMin_fits zone (t2 + seconds 60))) Fp Fs S3) as (d & r & d' & A & O & R & _ & _ & _ & _ & _ & _ & E1 & E2).
  exists d, d', r. split; [exact A|]. split; [exact O|]. split; [exact R|].
  destruct (PropSmgp.C44_refuted_report gbd ac mt seq msgId id (Format14 zone t0) (second_of t3) d1 d2 p rest ver seq' Hp Hs Hm Hi F0
    (proj2 (FormatMin_fits zone t1)) (proj2 (FormatMin_fits zone (t2 + seconds 60))) Fp Fs S3) as (x & r0 & d0 & c & A0 & B0 & _ & W & _ & _ & _ & _ & O0 & R0' & _).
  rewrite A in A0. apply (f_equal (fun v => match v with Ok y => y | _ => d end)) in A0. subst x.
  assert (Ed : d = MDeliver (CHead (89 + RptLen) SM_DELIVER seq) id 1 0 (Format14 zone t0) p (ms_srcTermID mt) 115 [] []
    (Some (smgp_NewReport msgId (second_of t3) d1 d2)) [] (ac_Version ac)).
  { unfold smgp_NewDeliveryReport in A. rewrite Hp, at_here in A. cbn [bind] in A. apply (f_equal (fun v => match v with Ok y => y | _ => d end)) in A. symmetry. exact A. }
  assert (X : md_recvTime d' = Format14 zone t0).
  { assert (Er : r0 = smgp_NewReport msgId (second_of t3) d1 d2) by (rewrite Ed in B0; cbn [md_report] in B0; congruence).
    assert (Hw : mdeliver_wf d (render (mreport_body r0))).
    { unfold mdeliver_wf. rewrite zlen_mreport_body by (auto; rewrite Er; reflexivity). rewrite Ed. cbn [md_h md_msgId md_isReport md_msgFormat md_msgLength h_cmd h_seq h_len]. unfold RptLen, is_byte.
      repeat split; auto; lia. }
    assert (Hf : mdeliver_fits d) by (rewrite Ed; split; [auto|split; auto]).
    pose proof (PropSmgp.C44_report_deliver gbd d r0 ver seq' ltac:(rewrite Ed; reflexivity) B0 W ltac:(rewrite Er; reflexivity) Hw Hf) as Q.
    rewrite O in Q. apply (f_equal (fun v => match v with Ok y => md_recvTime y | _ => [] end)) in Q. cbv beta iota in Q. cbn [md_recvTime] in Q. rewrite Q, Ed. reflexivity. }
  rewrite X, E1, E2. split; [exact R0|]. split; [apply FormatMin_read; auto|].
  pose proof (FormatMin_read zone (t2 + seconds 60)) as F. rewrite !whole_add in F. exact (F C2).
Qed.
(** While the clocks are not moved: neither report is done before it was submitted; in SMGP the two are a minute or
    more apart, and the times are read as above. *)
Theorem C123_order_partial : forall zone east t1 t2, (forall s, zone s = east) -> t1 <= t2 ->
  this_century east (whole t1) -> this_century east (whole t2 + 60) ->
  exists sub cdone sdone, minute_read east (FormatMin zone t1) = Some sub /\
    minute_read east (FormatMin zone (t2 + seconds 10)) = Some cdone /\ minute_read east (FormatMin zone (t2 + seconds 60)) = Some sdone /\
    sub <= whole t1 < sub + 60 /\ sub <= cdone /\ sub + 60 <= sdone /\ cdone <= whole t2 + 10 /\ sdone <= whole t2 + 60.
Proof.
  intros zone east t1 t2 Z0 L C1 C2. pose proof (whole_mono _ _ L) as Lw.
  assert (C3 : this_century east (whole t2 + 10)) by (unfold this_century in *; lia).
  pose proof (FormatMin_read zone t1) as F1. pose proof (FormatMin_read zone (t2 + seconds 10)) as F2. pose proof (FormatMin_read zone (t2 + seconds 60)) as F3.
  rewrite !whole_add in F2, F3. rewrite !Z0 in F1, F2, F3. do 3 eexists. split; [exact (F1 C1)|]. split; [exact (F2 C3)|]. split; [exact (F3 C2)|].
  pose proof (minute_near east (whole t1)). pose proof (minute_near east (whole t2 + 10)). pose proof (minute_near east (whole t2 + 60)).
  pose proof (minute_mono east (whole t1) (whole t2 + 10) ltac:(lia)). pose proof (minute_mono east (whole t1) (whole t2) Lw). rewrite minute_next in *. lia.
Qed.
(** Refuted: an SMGP report always says the message was done at a time still to come; a CMPP report does so exactly
    when it is made in the last ten seconds of a minute. *)
Theorem C123_refuted : forall zone east t, (forall s, zone s = east) -> this_century east (whole t) -> this_century east (whole t + 60) ->
  exists cdone sdone, minute_read east (FormatMin zone (t + seconds 10)) = Some cdone /\ minute_read east (FormatMin zone (t + seconds 60)) = Some sdone /\
    whole t < sdone /\ (whole t < cdone <-> 50 <= (whole t + east) mod 60).
Proof.
  intros zone east t Z0 C1 C2. assert (C3 : this_century east (whole t + 10)) by (unfold this_century in *; lia).
  pose proof (FormatMin_read zone (t + seconds 10)) as F2. pose proof (FormatMin_read zone (t + seconds 60)) as F3.
  rewrite !whole_add in F2, F3. rewrite !Z0 in F2, F3. do 2 eexists. split; [exact (F2 C3)|]. split; [exact (F3 C2)|].
  split; [rewrite minute_next; pose proof (minute_near east (whole t)); lia|]. unfold minute_of. set (s := whole t) in *. clearbody s.
  replace (s + 10 + east) with (s + east + 10) by lia. set (x := s + east). pose proof (Z.div_mod x 60 ltac:(lia)). pose proof (Z.mod_pos_bound x 60 ltac:(lia)).
  destruct (Z_lt_le_dec (x mod 60) 50) as [A|A].
  - assert ((x + 10) mod 60 = x mod 60 + 10) by (symmetry; apply (Z.mod_unique_pos _ _ (x / 60)); lia). lia.
  - assert ((x + 10) mod 60 = x mod 60 - 50) by (symmetry; apply (Z.mod_unique_pos _ _ (x / 60 + 1)); lia). lia.
Qed.
(** A report made in Shanghai on 2024-02-29 at 23:59:55: submitted 2402292359, done (CMPP) 2403010000. *)
Example C123_case : let zone := fun _ : Z => 28800 in let t := 1709222395 * 10 ^ 9 + 7 in
  FormatMin zone t = [50;52;48;50;50;57;50;51;53;57] /\ FormatMin zone (t + seconds 10) = [50;52;48;51;48;49;48;48;48;48] /\
  Format14 zone t = [50;48;50;52;48;50;50;57;50;51;53;57;53;53] /\ second_read 28800 (Format14 zone t) = Some 1709222395 /\
  minute_read 28800 (FormatMin zone t) = Some 1709222340 /\ minute_read 28800 (FormatMin zone (t + seconds 10)) = Some 1709222400 /\
  this_century 28800 (whole t) /\ this_century 28800 (whole t + 60).
Proof. cbv zeta. repeat (split; [vm_compute; reflexivity|]). split; vm_compute; intuition congruence. Qed.
Print Assumptions C123_cmpp_partial.
Print Assumptions C123_smgp_partial.
Print Assumptions C123_order_partial.
Print Assumptions C123_refuted.

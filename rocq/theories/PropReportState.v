(** * PropReportState: C80 (the final state a simulated report carries).
    Models: CmppModel.NewReport, SmgpModel.smgp_NewReport; specification: SpecReport.v. *)
From Verif Require Import Base SpecText UtilsModel UtilsProofs UtfProofs OptionsModel SeqModel SeqProofs SpecWire WireProofs
  CmppModel CmppProofs CmppBuildProofs PropCmpp PropCmpp2 PropSgip SmgpModel SpecSmgp SmgpProofs PropSmgp SpecReport.

(** ** Counting over one period *)
Lemma tally_last p : forall n a, tally p a (S n) = tally p a n + (if p (a + Z.of_nat n) then 1 else 0).
Proof.
  induction n as [|n IH]; intros a; [cbn [tally Z.of_nat]; rewrite (Z.add_0_r a); lia|].
  change (tally p a (S (S n))) with ((if p a then 1 else 0) + tally p (a + 1) (S n)). rewrite IH.
  change (tally p a (S n)) with ((if p a then 1 else 0) + tally p (a + 1) n).
  replace (a + 1 + Z.of_nat n) with (a + Z.of_nat (S n)) by lia. lia.
Qed.
Lemma tally_shift p n : (forall x, p (x + Z.of_nat n) = p x) -> forall a, tally p (a + 1) n = tally p a n.
Proof.
  intros P a. pose proof (tally_last p n a) as L. cbn [tally] in L. rewrite P in L. destruct (p a); lia.
Qed.
Lemma tally_period p n : (forall x, p (x + Z.of_nat n) = p x) -> forall a, 0 <= a -> tally p a n = tally p 0 n.
Proof.
  intros P a Ha. revert a Ha. apply natlike_ind; [reflexivity|]. intros x Hx IH. unfold Z.succ. rewrite tally_shift by auto. auto.
Qed.
Lemma tally_ext p q : forall n a, (forall x, a <= x < a + Z.of_nat n -> p x = q x) -> tally p a n = tally q a n.
Proof.
  induction n as [|n IH]; intros a H; [reflexivity|]. cbn [tally]. rewrite (H a) by lia. f_equal. apply IH. intros x Hx. apply H. lia.
Qed.

(** ** CMPP *)
Lemma cmpp_pick k : picks cmpp_failures delivered k (CmppModel.stat_of k).
Proof.
  unfold CmppModel.stat_of.
  repeat match goal with |- context [if ?a =? ?b then _ else _] =>
    let E := fresh in destruct (Z.eqb_spec a b) as [E|E]; [subst; left; unfold cmpp_failures; vm_compute; tauto|] end.
  right. intros a [I|[I|[I|[I|[I|[I|[I|[I|[I|[I|[]]]]]]]]]]]; injection I as <- _; congruence.
Qed.
(** What the client reads in the report of a submit: the state that belongs to the last two
    digits of the report's own number, seven characters. *)
Theorem C80_cmpp : forall s msgId nseq nid nrep sub done g seq',
  is_byte (sb_version s) -> is_byte (sb_destTerminalType s) -> 0 <= msgId < 2 ^ 64 -> fits 10 (sb_serviceId s) ->
  fits 21 (sb_destTerminalId s) -> fits 10 sub -> fits 10 done ->
  exists e r, over_wire (Delivery_Encode g (ToDeliveryReport s msgId nseq nid nrep sub done)) (Delivery_Decode (sb_version s) seq') = Ok e /\
    dl_report e = Some r /\ rp_smscSequence r = nrep mod 2 ^ 32 /\ zlen (rp_stat r) = 7 /\
    picks cmpp_failures delivered (rp_smscSequence r mod 100) (rp_stat r).
Proof.
  intros s msgId nseq nid nrep sub done g seq' Hv Hd Hm Fs Fd Fu Fo.
  destruct (C37_report s msgId nseq nid nrep sub done g seq' Hv Hd Hm Fs Fd Fu Fo) as (e & r & E & R & _ & _ & _ & S1 & _ & _ & _ & S2 & _).
  exists e, r. repeat match goal with |- _ /\ _ => split end; auto.
  - rewrite S1. unfold CmppModel.stat_of. repeat match goal with |- context [if ?b then _ else _] => destruct b end; reflexivity.
  - rewrite S1, S2. apply cmpp_pick.
Qed.
(** Each of the ten failures occurs at exactly one of any hundred consecutive numbers. *)
Theorem C80_cmpp_rate : forall k t msgId dest sub done a, In (k, t) cmpp_failures -> 0 <= a -> a + 100 <= 2 ^ 32 ->
  tally (fun n => beqb (rp_stat (CmppModel.NewReport msgId dest sub done n)) t) a 100 = 1.
Proof.
  intros k t msgId dest sub done a I Ha Hb.
  rewrite (tally_ext _ (fun n => beqb (CmppModel.stat_of (n mod 100)) t)).
  - rewrite tally_period; [|intros x; change (Z.of_nat 100) with 100; rewrite <- (Z_mod_plus_full x 1 100); repeat f_equal; lia|lia].
    destruct I as [I|[I|[I|[I|[I|[I|[I|[I|[I|[I|[]]]]]]]]]]]; injection I as <- <-; vm_compute; reflexivity.
  - intros x Hx. change (Z.of_nat 100) with 100 in Hx. cbn [rp_stat CmppModel.NewReport]. unfold u32. rewrite (Z.mod_small x) by (change (2 ^ 32) with 4294967296 in *; lia). reflexivity.
Qed.
(** Hence 90 of a hundred are delivered. *)
Theorem C80_cmpp_delivered : forall msgId dest sub done a, 0 <= a -> a + 100 <= 2 ^ 32 ->
  tally (fun n => beqb (rp_stat (CmppModel.NewReport msgId dest sub done n)) delivered) a 100 = 90.
Proof.
  intros msgId dest sub done a Ha Hb.
  rewrite (tally_ext _ (fun n => beqb (CmppModel.stat_of (n mod 100)) delivered)).
  - rewrite tally_period; [vm_compute; reflexivity|intros x; change (Z.of_nat 100) with 100; rewrite <- (Z_mod_plus_full x 1 100); repeat f_equal; lia|lia].
  - intros x Hx. change (Z.of_nat 100) with 100 in Hx. cbn [rp_stat CmppModel.NewReport]. unfold u32. rewrite (Z.mod_small x) by (change (2 ^ 32) with 4294967296 in *; lia). reflexivity.
Qed.

(** ** SMGP *)
Lemma smgp_pick sec : 0 <= sec -> forall id d1 d2, let r := smgp_NewReport id sec d1 d2 in
  picks smgp_failures smgp_fine (sec mod 1000) (mp_err r, mp_stat r).
Proof.
  intros Hs id d1 d2. cbn [mp_err mp_stat smgp_NewReport]. unfold err_of. rewrite Z.rem_mod_nonneg by lia.
  pose proof (Z.mod_pos_bound sec 1000 ltac:(lia)) as B. set (m := sec mod 1000) in *. clearbody m.
  destruct ((1 <=? m) && (m <=? 10)) eqn:C.
  - left. assert (M : m = 1 \/ m = 2 \/ m = 3 \/ m = 4 \/ m = 5 \/ m = 6 \/ m = 7 \/ m = 8 \/ m = 9 \/ m = 10) by lia.
    repeat (destruct M as [->|M]; [vm_compute; tauto|]). subst m. vm_compute. tauto.
  - right. intros a I. assert (1 <= m <= 10) by (destruct I as [I|[I|[I|[I|[I|[I|[I|[I|[I|[I|[]]]]]]]]]]]; injection I as <- _; lia). lia.
Qed.
(** What the client reads in the report of a submit. *)
Theorem C80_smgp : forall gbd ac mt seq msgId id now sec d1 d2 p rest ver seq',
  ms_destTermID mt = p :: rest -> 0 <= seq < 2 ^ 32 -> zlen msgId = 10 -> zlen id = 10 -> fits 14 now ->
  zlen d1 = 10 -> zlen d2 = 10 -> fits 21 p -> fits 21 (ms_srcTermID mt) -> 0 <= sec ->
  exists d r d', smgp_NewDeliveryReport ac mt seq msgId id now sec d1 d2 = Ok d /\
    over_wire (MDeliver_Encode d) (MDeliver_Decode gbd ver seq') = Ok d' /\ md_report d' = Some r /\
    zlen (mp_stat r) = 7 /\ zlen (mp_err r) = 3 /\ picks smgp_failures smgp_fine (sec mod 1000) (mp_err r, mp_stat r) /\
    mp_id r = msgId /\ mp_sub r = one /\ mp_dlvrd r = one /\ mp_submitDate r = d1 /\ mp_doneDate r = d2.
Proof.
  intros gbd ac mt seq msgId id now sec d1 d2 p rest ver seq' Hdst Hs Hm Hi Fn L1 L2 Fp Fs Hsec.
  destruct (C44_refuted_report gbd ac mt seq msgId id now sec d1 d2 p rest ver seq' Hdst Hs Hm Hi Fn L1 L2 Fp Fs Hsec)
    as (d & r & d' & c & A & B & _ & W & _ & _ & _ & _ & O & R & _).
  assert (Er : r = smgp_NewReport msgId sec d1 d2).
  { unfold smgp_NewDeliveryReport in A. rewrite Hdst, at_here in A. cbn [bind] in A.
    match type of A with Ok ?x = Ok _ => assert (Ed : d = x) by congruence end. rewrite Ed in B. cbn [md_report] in B. congruence. }
  destruct W as (_ & _ & _ & _ & _ & W1 & W2).
  exists d, r, d'. repeat match goal with |- _ /\ _ => split end; auto; rewrite Er; try reflexivity. apply smgp_pick. auto.
Qed.
(** Each failure occurs in exactly one of any thousand consecutive seconds. *)
Theorem C80_smgp_rate : forall k e t id d1 d2 a, In (k, (e, t)) smgp_failures -> 0 <= a ->
  tally (fun sec => let r := smgp_NewReport id sec d1 d2 in beqb (mp_err r) e && beqb (mp_stat r) t) a 1000 = 1.
Proof.
  intros k e t id d1 d2 a I Ha.
  set (f := fun m => beqb (mp_err (smgp_NewReport id m d1 d2)) e && beqb (mp_stat (smgp_NewReport id m d1 d2)) t).
  rewrite (tally_ext _ (fun sec => f (sec mod 1000))).
  - rewrite tally_period; [|intros x; change (Z.of_nat 1000) with 1000; rewrite <- (Z_mod_plus_full x 1 1000); do 2 f_equal; lia|lia].
    unfold f. destruct I as [I|[I|[I|[I|[I|[I|[I|[I|[I|[I|[]]]]]]]]]]]; injection I as <- <- <-; vm_compute; reflexivity.
  - intros x Hx. cbv zeta. unfold f. cbn [mp_err mp_stat smgp_NewReport]. unfold err_of.
    rewrite !Z.rem_mod_nonneg by (try apply Z.mod_pos_bound; lia). rewrite Z.mod_mod by lia. reflexivity.
Qed.
Example C80_case : picks cmpp_failures delivered (188 mod 100) (rp_stat (CmppModel.NewReport 5 [49] [] [] 188))
  /\ rp_stat (CmppModel.NewReport 5 [49] [] [] 188) <> delivered
  /\ picks smgp_failures smgp_fine (1700000007 mod 1000) (mp_err (smgp_NewReport [] 1700000007 [] []), mp_stat (smgp_NewReport [] 1700000007 [] []))
  /\ mp_err (smgp_NewReport [] 1700000007 [] []) = [48;48;55]
  /\ tally (fun n => beqb (rp_stat (CmppModel.NewReport 5 [49] [] [] n)) delivered) 4000000057 100 = 90.
Proof.
  split; [apply cmpp_pick|]. split; [vm_compute; discriminate|]. split; [apply smgp_pick; lia|]. split; vm_compute; reflexivity.
Qed.
Print Assumptions C80_cmpp.
Print Assumptions C80_cmpp_rate.
Print Assumptions C80_cmpp_delivered.
Print Assumptions C80_smgp.
Print Assumptions C80_smgp_rate.

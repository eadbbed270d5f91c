(** * PropOverlong: property C41 (an over-long text field cannot corrupt its neighbours): CMPP,
    SMGP, the SGIP login, deliver and report.  SGIP submits are refuted in PropSgip.v ([C41_refuted]). *)
From Verif Require Import Base UtilsModel OptionsModel SpecWire WireProofs CmppModel SpecCmpp CmppProofs CmppSubmitProofs
  CmppBuildProofs PropCmpp SgipModel SpecSgip SgipProofs PropSgip TlvModel PropTlv SmgpModel SpecSmgp SmgpProofs PropSmgp.

Definition cut (w : nat) (s : bytes) : bytes := firstn w s.
Lemma fit_cut w s : fit w (cut w s) = fit w s.
Proof.
  unfold fit, cut. rewrite firstn_firstn, Nat.min_id, firstn_length. f_equal. f_equal. lia.
Qed.

(** The packets with every text cut to the width of its field.  Nothing else changes. *)
Definition cut_connect (c : connect) : connect :=
  Connect (cn_h c) (cut 6 (cn_sourceAddr c)) (cn_auth c) (cn_version c) (cn_timestamp c) (cn_secret c).
Definition cut_submit (s : submit) : submit :=
  Submit (sb_h s) (sb_msgId s) (sb_pkTotal s) (sb_pkNumber s) (sb_registeredDel s) (sb_msgLevel s)
    (cut 10 (sb_serviceId s)) (sb_feeUsertype s)
    (cut (if is_v3 (sb_version s) then 32 else 21) (sb_feeTerminalId s)) (sb_feeTerminalType s) (sb_tpPid s) (sb_tpUdhi s)
    (sb_msgFmt s) (cut 6 (sb_msgSrc s)) (cut 2 (sb_feeType s)) (cut 6 (sb_feeCode s)) (cut 17 (sb_validTime s))
    (cut 17 (sb_atTime s)) (cut 21 (sb_srcId s)) (sb_destUsrTl s) (sb_destTerminalId s) (sb_termIds s)
    (sb_destTerminalType s) (sb_msgLength s) (sb_msgContent s) (cut 20 (sb_linkID s)) (sb_version s).
Definition cut_report (r : creport) : creport :=
  CReport (rp_msgId r) (cut 7 (rp_stat r)) (cut 10 (rp_submitTime r)) (cut 10 (rp_doneTime r))
    (cut 21 (rp_destTerminalId r)) (rp_smscSequence r).
Definition cut_delivery (d : delivery) : delivery :=
  Delivery (dl_h d) (dl_msgId d) (cut 21 (dl_destId d)) (cut 10 (dl_serviceId d)) (dl_tpPid d) (dl_tpUdhi d) (dl_msgFmt d)
    (cut (if is_v3 (dl_version d) then 32 else 21) (dl_srcTerminalId d)) (dl_srcTerminalType d) (dl_registeredDelivery d)
    (dl_msgLength d) (dl_msgContent d) (option_map cut_report (dl_report d)) (cut 20 (dl_linkID d)) (dl_version d).
Definition cut_login (l : login) : login :=
  Login (lg_h l) (cut 8 (lg_clientID l)) (lg_auth l) (lg_mode l) (lg_timestamp l) (lg_version l) (lg_secret l).
Definition cut_msubmit (s : msubmit) : msubmit :=
  MSubmit (ms_h s) (ms_msgType s) (ms_needReport s) (ms_priority s) (cut 10 (ms_serviceID s)) (cut 2 (ms_feeType s))
    (cut 6 (ms_feeCode s)) (cut 6 (ms_fixedFee s)) (ms_msgFormat s) (cut 17 (ms_validTime s)) (cut 17 (ms_atTime s))
    (cut 21 (ms_srcTermID s)) (cut 21 (ms_chargeTermID s)) (ms_count s) (map (cut 21) (ms_destTermID s)) (ms_msgLength s)
    (ms_content s) (cut 8 (ms_reserve s)) (ms_tlv s) (ms_version s).
Definition cut_mdeliver (d : mdeliver) : mdeliver :=
  MDeliver (md_h d) (md_msgId d) (md_isReport d) (md_msgFormat d) (cut 14 (md_recvTime d)) (cut 21 (md_srcTermID d))
    (cut 21 (md_destTermID d)) (md_msgLength d) (md_content d) (md_bytes d) (md_report d) (cut 8 (md_reserve d)) (md_version d).
Definition cut_bind (b : bindp) : bindp := Bind (bd_h b) (bd_type b) (cut 16 (bd_name b)) (cut 16 (bd_pwd b)).

(** ** CMPP *)
Theorem C41_cmpp_connect : forall c, connect_wf c -> Connect_Encode c = Connect_Encode (cut_connect c).
Proof.
  intros c H. rewrite (Connect_Encode_ok c H), (Connect_Encode_ok (cut_connect c) H).
  unfold connect_layout, render. cbn [cut_connect cn_h cn_sourceAddr cn_auth cn_version cn_timestamp app map concat render1 head].
  rewrite fit_cut. reflexivity.
Qed.
Theorem C41_cmpp_submit : forall s, submit_wf s -> Submit_Encode s = Submit_Encode (cut_submit s).
Proof.
  intros s H. rewrite (Submit_Encode_ok s H), (Submit_Encode_ok (cut_submit s) H).
  unfold submit_body, render. cbn [cut_submit sb_h sb_msgId sb_pkTotal sb_pkNumber sb_registeredDel sb_msgLevel
    sb_serviceId sb_feeUsertype sb_feeTerminalId sb_feeTerminalType sb_tpPid sb_tpUdhi sb_msgFmt sb_msgSrc sb_feeType
    sb_feeCode sb_validTime sb_atTime sb_srcId sb_destUsrTl sb_destTerminalId sb_termIds sb_destTerminalType
    sb_msgLength sb_msgContent sb_linkID sb_version].
  destruct (is_v3 (sb_version s)); cbn [app map concat render1 head]; rewrite !fit_cut; reflexivity.
Qed.
(** Over-long destination numbers: message by message the frames are those for the numbers cut
    to the field width. *)
Theorem C41_cmpp_numbers : forall ac phones content seq ops vd g nxt msgs,
  ac_wf ac -> ops_wf ops -> zlen phones <= 255 -> 0 <= seq < 2 ^ 32 -> (forall i, 0 <= nxt i < 2 ^ 32) ->
  NewSubmit ac phones content seq ops vd g nxt = Ok msgs ->
  exists msgs', NewSubmit ac (map (cut (if is_v3 (ac_Version ac) then 32 else 21)) phones) content seq ops vd g nxt = Ok msgs' /\
    length msgs' = length msgs /\
    forall k s s', nth_error msgs k = Some s -> nth_error msgs' k = Some s' -> Submit_Encode s = Submit_Encode s'.
Proof.
  intros ac phones content seq ops vd g nxt msgs Ha Ho Hp Hs Hx E.
  set (w := if is_v3 (ac_Version ac) then 32%nat else 21%nat).
  destruct (NewSubmit_ok ac phones content seq ops vd g nxt Ha Ho Hp Hs Hx) as (m & parts & E1 & E2 & E3 & E4 & H).
  rewrite E in E1. injection E1 as <-.
  assert (Hp' : zlen (map (cut w) phones) <= 255) by (unfold zlen in *; rewrite map_length; lia).
  destruct (NewSubmit_ok ac (map (cut w) phones) content seq ops vd g nxt Ha Ho Hp' Hs Hx) as (m' & parts' & F1 & F2 & F3 & F4 & H').
  rewrite E2 in F2. injection F2 as <-. exists m'. split; [exact F1|]. split; [congruence|].
  intros k s s' Hk Hk'. destruct (nth_error parts k) as [b|] eqn:Eb.
  2:{ apply nth_error_None in Eb. assert (k < length msgs)%nat by (apply nth_error_Some; congruence). lia. }
  destruct (H k s b Hk Eb) as (W & B & P). destruct (H' k s' b Hk' Eb) as (W' & B' & P').
  rewrite (Submit_Encode_ok s W), (Submit_Encode_ok s' W').
  assert (Hids : sb_termIds s = sb_termIds s').
  { destruct B as (_ & _ & _ & _ & B5 & _). destruct B' as (_ & _ & _ & _ & B5' & _). rewrite B5, B5'. fold w.
    unfold render. rewrite !map_map. f_equal. apply map_ext. intros p. cbn [render1]. rewrite fit_cut. reflexivity. }
  assert (Hn : sb_destUsrTl s = sb_destUsrTl s').
  { destruct B as (_ & _ & _ & B4 & _). destruct B' as (_ & _ & _ & B4' & _). rewrite B4, B4'. unfold zlen. rewrite map_length. reflexivity. }
  destruct B as (B1 & B2 & B3 & _ & _ & B6 & B7 & B8 & B9 & B10 & B11 & B12 & B13 & B14 & B15 & B16 & B17 & B18 & B19).
  destruct B' as (C1 & C2 & C3 & _ & _ & C6 & C7 & C8 & C9 & C10 & C11 & C12 & C13 & C14 & C15 & C16 & C17 & C18 & C19).
  destruct P as (P1 & P2 & P3 & P4 & P5 & P6 & P7). destruct P' as (Q1 & Q2 & Q3 & Q4 & Q5 & Q6 & Q7).
  destruct W as (_ & _ & L & _). destruct W' as (_ & _ & L' & _).
  assert (HL : h_len (sb_h s) = h_len (sb_h s')) by (rewrite L, L', B1, C1, Hids, P1, Q1; reflexivity).
  rewrite HL, P4, Q4, B1, C1. unfold submit_body.
  rewrite Hids, Hn, B2, B3, B6, B7, B8, B9, B10, B11, B12, B13, B14, B15, B16, B17, B18, B19, P1, P2, P5, P6, P7,
    C2, C3, C6, C7, C8, C9, C10, C11, C12, C13, C14, C15, C16, C17, C18, C19, Q1, Q2, Q5, Q6, Q7. reflexivity.
Qed.
Theorem C41_cmpp_delivery : forall g d, delivery_wf d ->
  (exists c, delivery_content g d = Ok c) -> Delivery_Encode g d = Delivery_Encode g (cut_delivery d).
Proof.
  intros g d H [c Hc].
  assert (Hc' : delivery_content g (cut_delivery d) = Ok c).
  { rewrite <- Hc. unfold delivery_content. cbn [cut_delivery dl_registeredDelivery dl_report dl_msgFmt dl_msgContent].
    destruct (dl_registeredDelivery d =? 1); [|reflexivity]. destruct (dl_report d) as [r|]; [|reflexivity].
    cbn [option_map]. unfold report_body, render. cbn [cut_report rp_msgId rp_stat rp_submitTime rp_doneTime rp_destTerminalId
      rp_smscSequence app map concat render1]. rewrite !fit_cut. reflexivity. }
  rewrite (Delivery_Encode_ok g d c H Hc), (Delivery_Encode_ok g (cut_delivery d) c H Hc').
  unfold delivery_body, render. cbn [cut_delivery dl_h dl_msgId dl_destId dl_serviceId dl_tpPid dl_tpUdhi dl_msgFmt
    dl_srcTerminalId dl_srcTerminalType dl_registeredDelivery dl_msgLength dl_msgContent dl_linkID dl_version].
  destruct (is_v3 (dl_version d)); cbn [app map concat render1 head]; rewrite !fit_cut; reflexivity.
Qed.

(** ** SMGP *)
Theorem C41_smgp_login : forall l, login_wf l -> Login_Encode l = Login_Encode (cut_login l).
Proof.
  intros l H. rewrite (Login_Encode_ok l H), (Login_Encode_ok (cut_login l) H).
  unfold login_body, render. cbn [cut_login lg_h lg_clientID lg_auth lg_mode lg_timestamp lg_version app map concat render1 head].
  rewrite fit_cut. reflexivity.
Qed.
Theorem C41_smgp_submit : forall s items, has_opts s items -> msubmit_wf s (opts_wire items) ->
  MSubmit_Encode s = MSubmit_Encode (cut_msubmit s).
Proof.
  intros s items Ho H.
  assert (H' : msubmit_wf (cut_msubmit s) (opts_wire items)).
  { unfold msubmit_wf in *. cbn [cut_msubmit ms_h ms_msgType ms_needReport ms_priority ms_msgFormat ms_count ms_destTermID
      ms_msgLength ms_content]. unfold zlen in *. rewrite map_length. exact H. }
  rewrite (MSubmit_Encode_ok s items Ho H), (MSubmit_Encode_ok (cut_msubmit s) items Ho H').
  unfold msubmit_body. cbn [cut_msubmit ms_h ms_msgType ms_needReport ms_priority ms_serviceID ms_feeType ms_feeCode
    ms_fixedFee ms_msgFormat ms_validTime ms_atTime ms_srcTermID ms_chargeTermID ms_count ms_destTermID ms_msgLength
    ms_content ms_reserve ms_tlv]. rewrite !render_app.
  assert (Hm : render (map (T 21) (map (cut 21) (ms_destTermID s))) = render (map (T 21) (ms_destTermID s))).
  { unfold render. rewrite !map_map. f_equal. apply map_ext. intros p. cbn [render1]. apply fit_cut. }
  rewrite Hm. unfold render. cbn [map concat render1]. rewrite !fit_cut. reflexivity.
Qed.
Theorem C41_smgp_deliver : forall d c, mdeliver_content d = Ok c ->
  (md_isReport d = 1 -> md_report d <> None -> zlen c = 122) -> mdeliver_wf d c ->
  MDeliver_Encode d = MDeliver_Encode (cut_mdeliver d).
Proof.
  intros d c Hc Hr H. rewrite (MDeliver_Encode_ok d c Hc Hr H), (MDeliver_Encode_ok (cut_mdeliver d) c Hc Hr H).
  unfold mdeliver_body, render. cbn [cut_mdeliver md_h md_msgId md_isReport md_msgFormat md_recvTime md_srcTermID
    md_destTermID md_msgLength md_reserve app map concat render1 head]. rewrite !fit_cut. reflexivity.
Qed.

(** ** SGIP login *)
Theorem C41_sgip_bind : forall b, sh_len (bd_h b) = 61 -> is_byte (bd_type b) -> Bind_Encode b = Bind_Encode (cut_bind b).
Proof.
  intros b Hl Ht. rewrite (Bind_Encode_ok b Hl Ht), (Bind_Encode_ok (cut_bind b) Hl Ht).
  unfold bind_body, render. cbn [cut_bind bd_h bd_type bd_name bd_pwd app]. rewrite !map_app, !concat_app.
  cbn [map concat render1]. rewrite !fit_cut. reflexivity.
Qed.

(** A 30 byte service id and sub-number in the three packets. *)
Example C41_case_cmpp :
  (m <- NewSubmit ac_demo [repeat 51 40] [72;105] 5 [OServiceId (repeat 65 30); OSpSubNo (repeat 66 30)] [] 0 (fun _ => 6) ;;
   s <- at_ m 0 ;; f <- Submit_Encode s ;; a <- slice f 24 35 ;; b <- slice f 119 141 ;; Ok (zlen (sb_serviceId s), a, b))
  = Ok (30, repeat 65 10 ++ [2], [57;53] ++ repeat 66 19 ++ [1]).
Proof. vm_compute. reflexivity. Qed.
Example C41_case_smgp :
  (m <- smgp_NewSubmit Some ac_demo [repeat 51 40] [72;105] 5 [OServiceId (repeat 65 30)] [] 0 (fun _ => 6) ;;
   s <- at_ m 0 ;; f <- MSubmit_Encode s ;; a <- slice f 15 27 ;; Ok (zlen f, zlen (ms_serviceID s), a))
  = Ok (149, 30, repeat 65 10 ++ [48;50]).
Proof. vm_compute. reflexivity. Qed.
Print Assumptions C41_cmpp_connect.
Print Assumptions C41_cmpp_submit.
Print Assumptions C41_cmpp_numbers.
Print Assumptions C41_cmpp_delivery.
Print Assumptions C41_smgp_login.
Print Assumptions C41_smgp_submit.
Print Assumptions C41_smgp_deliver.
Print Assumptions C41_sgip_bind.

(** ** SGIP delivers and reports *)
(** Two frames of one length that differ at most in the positions [lo, hi). *)
Definition differ (lo hi : Z) (f g : bytes) : Prop :=
  zlen f = zlen g /\ forall i, Z.of_nat i < lo \/ hi <= Z.of_nat i -> nth_error f i = nth_error g i.
Lemma nth_splice f lo src i : 0 <= lo -> lo + zlen src <= zlen f ->
  nth_error (splice f lo src) i =
    if (lo <=? Z.of_nat i) && (Z.of_nat i <? lo + zlen src) then nth_error src (i - Z.to_nat lo) else nth_error f i.
Proof.
  intros H1 H2. unfold splice, zlen, bytes in *.
  assert (L : length (firstn (Z.to_nat lo) f) = Z.to_nat lo) by (rewrite firstn_length; lia).
  destruct (lo <=? Z.of_nat i) eqn:E1; cbn [andb].
  - rewrite nth_error_app2 by lia. rewrite L. destruct (Z.of_nat i <? lo + Z.of_nat (length src)) eqn:E2.
    + rewrite nth_error_app1 by lia. reflexivity.
    + rewrite nth_error_app2 by lia. rewrite <- (firstn_skipn (Z.to_nat lo + length src) f) at 2.
      assert (L2 : length (firstn (Z.to_nat lo + length src) f) = (Z.to_nat lo + length src)%nat) by (rewrite firstn_length; lia).
      rewrite (nth_error_app2 (firstn _ _)) by lia. rewrite L2. f_equal. lia.
  - rewrite nth_error_app1 by lia. rewrite <- (firstn_skipn (Z.to_nat lo) f) at 2. rewrite nth_error_app1 by lia. reflexivity.
Qed.
Lemma zlen_splice f lo src : 0 <= lo -> lo + zlen src <= zlen f -> zlen (splice f lo src) = zlen f.
Proof. intros H1 H2. unfold splice, zlen, bytes in *. rewrite !app_length, firstn_length, skipn_length. lia. Qed.
Lemma differ_splice lo hi f g k src : differ lo hi f g -> 0 <= k -> k + zlen src <= zlen f ->
  differ lo hi (splice f k src) (splice g k src).
Proof.
  intros (L & D) H1 H2. split; [rewrite !zlen_splice by lia; auto|]. intros i Hi. rewrite !nth_splice by lia.
  destruct (_ && _); auto.
Qed.
Lemma differ_shrink lo hi f g src : differ lo hi f g -> 0 <= lo -> lo + zlen src <= zlen f ->
  differ (lo + zlen src) hi (splice f lo src) (splice g lo src).
Proof.
  intros (L & D) H1 H2. split; [rewrite !zlen_splice by lia; auto|]. intros i Hi. rewrite !nth_splice by lia.
  destruct (lo <=? Z.of_nat i) eqn:E1; cbn [andb]; [|apply D; lia]. destruct (Z.of_nat i <? lo + zlen src) eqn:E2; auto. apply D. lia.
Qed.
Lemma differ_cut f lo src w : 0 <= lo -> lo + Z.of_nat w <= zlen f ->
  exists g h, copy_open f lo src = Ok g /\ copy_open f lo (cut w src) = Ok h /\ zlen g = zlen f /\
    differ (lo + Z.of_nat w) (lo + zlen src) g h.
Proof.
  intros H1 H2. unfold copy_open, copy_at. replace (_ && _) with true by lia. eexists. eexists. split; [reflexivity|]. split; [reflexivity|].
  assert (A : forall s : bytes, lo + zlen (firstn (Z.to_nat (zlen f - lo)) s) <= zlen f) by (intros s; unfold zlen, bytes in *; rewrite firstn_length; lia).
  split; [apply zlen_splice; auto|]. split; [rewrite !zlen_splice by auto; reflexivity|].
  intros i Hi. rewrite !nth_splice by auto.
  assert (NF : forall (s : bytes) n j, nth_error (firstn n s) j = if (j <? n)%nat then nth_error s j else None).
  { clear. induction s as [|x s IH]; intros [|n] [|j]; cbn [firstn nth_error]; try reflexivity.
    - destruct (_ <? _)%nat; reflexivity.
    - rewrite IH. reflexivity. }
  destruct (lo <=? Z.of_nat i) eqn:E1; cbn [andb]; auto.
  unfold cut. rewrite !NF. unfold zlen, bytes in *. rewrite !firstn_length.
  destruct Hi as [Hi|Hi].
  - replace (i - Z.to_nat lo <? w)%nat with true by lia.
    destruct (i - Z.to_nat lo <? Z.to_nat (Z.of_nat (length f) - lo))%nat eqn:E2;
    destruct (Z.of_nat i <? lo + Z.of_nat (min (Z.to_nat (Z.of_nat (length f) - lo)) (length src))) eqn:E3;
    destruct (Z.of_nat i <? lo + Z.of_nat (min (Z.to_nat (Z.of_nat (length f) - lo)) (min w (length src)))) eqn:E4; auto; lia.
  - replace (Z.of_nat i <? lo + Z.of_nat (min (Z.to_nat (Z.of_nat (length f) - lo)) (length src))) with false by lia.
    replace (Z.of_nat i <? lo + Z.of_nat (min (Z.to_nat (Z.of_nat (length f) - lo)) (min w (length src)))) with false by lia. reflexivity.
Qed.
Lemma differ_none lo hi f g : differ lo hi f g -> hi <= lo -> f = g.
Proof.
  intros (_ & D) H. revert g D. induction f as [|x f IH]; intros [|y g] D; auto.
  - specialize (D 0%nat ltac:(lia)). discriminate.
  - specialize (D 0%nat ltac:(lia)). discriminate.
  - assert (x = y) as <- by (specialize (D 0%nat ltac:(lia)); cbn in D; congruence). f_equal. apply (IH g).
    intros i _. apply (D (S i)). lia.
Qed.
Lemma differ_slice lo hi f g a b : differ lo hi f g -> b <= lo -> slice f a b = slice g a b.
Proof.
  intros (L & D) H. unfold slice. rewrite L. destruct (_ && _) eqn:E; [|reflexivity]. f_equal.
  rewrite !andb_true_iff in E.
  assert (X : firstn (Z.to_nat b) f = firstn (Z.to_nat b) g).
  { clear - D H E L. apply (differ_none 0 0); [|lia]. split.
    - unfold zlen, bytes in *. rewrite !firstn_length. lia.
    - intros i _. assert (NF : forall (s : bytes) n j, nth_error (firstn n s) j = if (j <? n)%nat then nth_error s j else None).
      { clear. induction s as [|x s IH]; intros [|n] [|j]; cbn [firstn nth_error]; try reflexivity.
        - destruct (_ <? _)%nat; reflexivity.
        - rewrite IH. reflexivity. }
      rewrite !NF. destruct (i <? _)%nat eqn:F; auto. apply D. lia. }
  rewrite !firstn_skipn_comm. replace (Z.to_nat a + Z.to_nat (b - a))%nat with (Z.to_nat b) by lia. rewrite X. reflexivity.
Qed.
Lemma differ_at lo hi f g i : differ lo hi f g -> i < lo -> at_ f i = at_ g i.
Proof.
  intros (L & D) H. unfold at_. rewrite L. destruct (_ && _) eqn:E; [|reflexivity]. rewrite andb_true_iff in E.
  rewrite (D (Z.to_nat i)) by lia. reflexivity.
Qed.
Lemma differ_skip n lo hi f g : differ lo hi f g -> Z.of_nat n <= zlen f -> differ (lo - Z.of_nat n) (hi - Z.of_nat n) (skipn n f) (skipn n g).
Proof.
  intros (L & D) H. split; [unfold zlen, bytes in *; rewrite !skipn_length; lia|]. intros i Hi.
  assert (NS : forall (s : bytes) k j, nth_error (skipn k s) j = nth_error s (k + j)).
  { clear. induction s as [|x s IH]; intros [|k] j; cbn [skipn Nat.add]; try reflexivity.
    - destruct j; reflexivity.
    - apply IH. }
  rewrite !NS. apply D. lia.
Qed.
Lemma differ_get lo hi f g a : differ lo hi f g -> a + 4 <= lo -> get_be 4 f a (zlen f) = get_be 4 g a (zlen g).
Proof.
  intros D H. pose proof D as (L & _). unfold get_be. rewrite <- L.
  pose proof (differ_slice _ _ _ _ a (a + 4) D H) as X. unfold slice in *. rewrite <- L in *.
  destruct ((0 <=? a) && (a <=? zlen f) && (zlen f <=? zlen f)) eqn:E; [|reflexivity]. cbn [bind].
  rewrite !andb_true_iff in E.
  assert (Z1 : forall s : bytes, zlen s = zlen f -> zlen (firstn (Z.to_nat (zlen f - a)) (skipn (Z.to_nat a) s)) = zlen f - a).
  { intros s Hs. unfold zlen, bytes in *. rewrite firstn_length, skipn_length. lia. }
  rewrite !Z1 by auto. destruct (Z.of_nat 4 <=? zlen f - a) eqn:E4; [|reflexivity].
  rewrite !firstn_firstn, !Nat.min_l by (unfold zlen, bytes in *; lia).
  replace ((0 <=? a) && (a <=? a + 4) && (a + 4 <=? zlen f)) with true in X by lia.
  replace (Z.to_nat (a + 4 - a)) with 4%nat in X by lia. congruence.
Qed.
Lemma differ_refl lo hi f : differ lo hi f f.
Proof. split; auto. Qed.
Lemma differ_weaken lo hi lo' hi' f g : differ lo hi f g -> lo' <= lo -> hi <= hi' -> differ lo' hi' f g.
Proof. intros (L & D) H1 H2. split; auto. intros i Hi. apply D. lia. Qed.
Lemma differ_one f k src lo hi : 0 <= k -> k + zlen src <= zlen f -> lo <= k -> k + zlen src <= hi -> differ lo hi (splice f k src) f.
Proof.
  intros H1 H2 H3 H4. split; [apply zlen_splice; auto|]. intros i Hi. rewrite nth_splice by auto.
  destruct (_ && _) eqn:E; auto. rewrite andb_true_iff in E. lia.
Qed.
Lemma differ_trans lo hi f g h : differ lo hi f g -> differ lo hi g h -> differ lo hi f h.
Proof. intros (L & D) (L' & D'). split; [congruence|]. intros i Hi. rewrite D, D'; auto. Qed.
Lemma copy_open_splice f lo src : 0 <= lo <= zlen f ->
  copy_open f lo src = Ok (splice f lo (firstn (Z.to_nat (zlen f - lo)) src)) /\
  lo + zlen (firstn (Z.to_nat (zlen f - lo)) src) <= zlen f.
Proof.
  intros H. unfold copy_open, copy_at. replace (_ && _) with true by lia. split; [reflexivity|].
  unfold zlen, bytes in *. rewrite firstn_length. lia.
Qed.
Lemma set_at_splice f i b : 0 <= i < zlen f -> set_at f i b = Ok (splice f i [b]).
Proof. intros H. unfold set_at. replace (_ && _) with true by lia. reflexivity. Qed.
Lemma put_be_splice f i v : 0 <= i -> i + 4 <= zlen f -> put_be 4 f i (zlen f) v = Ok (splice f i (be 4 v)).
Proof. intros H1 H2. unfold put_be. replace (_ && _) with true by lia. reflexivity. Qed.
Lemma splice_there f k src : 0 <= k -> k + zlen src <= zlen f -> firstn (length src) (skipn (Z.to_nat k) (splice f k src)) = src.
Proof.
  intros H1 H2. unfold splice, zlen, bytes in *.
  assert (L : length (firstn (Z.to_nat k) f) = Z.to_nat k) by (rewrite firstn_length; lia).
  rewrite skipn_app, L, skipn_all2 by lia. rewrite Nat.sub_diag. cbn [skipn app].
  rewrite firstn_app, Nat.sub_diag, firstn_all. cbn [firstn]. apply app_nil_r.
Qed.
Lemma get_be_there f k v : 0 <= k -> k + 4 <= zlen f -> 0 <= v < 2 ^ 32 -> get_be 4 (splice f k (be 4 v)) k (zlen f) = Ok v.
Proof.
  intros H1 H2 H3. assert (L4 : zlen (be 4 v) = 4) by (rewrite zlen_be; reflexivity).
  assert (Lf : zlen (splice f k (be 4 v)) = zlen f) by (apply zlen_splice; lia).
  unfold get_be, slice. rewrite Lf. replace (_ && _) with true by lia. cbn [bind].
  replace (Z.of_nat 4 <=? _) with true by (unfold zlen, bytes in *; rewrite firstn_length, skipn_length; lia).
  rewrite firstn_firstn, Nat.min_l by lia.
  pose proof (splice_there f k (be 4 v) H1 ltac:(lia)) as X. rewrite length_be in X. rewrite X.
  rewrite unbe_be_small by (change (256 ^ Z.of_nat 4) with (2 ^ 32); lia). reflexivity.
Qed.
Lemma through_differ {A} lo hi f g (dec : Z -> bytes -> res A) : differ lo hi f g -> 12 <= lo -> 12 <= zlen f ->
  (forall n, dec n (skipn 12 f) = dec n (skipn 12 g)) -> through (Ok f) dec = through (Ok g) dec.
Proof.
  intros D H1 H2 Hd. pose proof D as (L & _). unfold through. cbn [bind].
  rewrite (differ_slice _ _ _ _ 0 12 D H1). destruct (slice g 0 12) as [h| |]; cbn [bind]; auto.
  destruct (UnpackHead h) as [[[l c] n]| |]; cbn [bind]; auto.
  assert (X : forall x : bytes, zlen x = zlen f -> slice x 12 (zlen x) = Ok (skipn 12 x)).
  { intros x Hx. unfold slice. replace (_ && _) with true by lia. rewrite firstn_all2; auto. unfold zlen, bytes in *. rewrite skipn_length. lia. }
  rewrite !X by auto. cbn [bind]. rewrite Hd. reflexivity.
Qed.

Definition cut_sp (d : sdeliver) : sdeliver :=
  SDeliver (sd_h d) (sd_UserNumber d) (cut 21 (sd_SPNumber d)) (sd_TpPid d) (sd_TpUdhi d) (sd_Coding d) (sd_MessageLength d)
    (sd_Content d) (sd_Reserve d).
(** Over-long service numbers of a deliver: what the receiver reads is what it reads when the
    number is cut to its field; the whole frame is the same while the number does not reach past
    the content. *)
Theorem C41_sgip_deliver : forall d, sdeliver_wf d ->
  exists f g, SDeliver_Encode d = Ok f /\ SDeliver_Encode (cut_sp d) = Ok g /\ zlen f = sh_len (sd_h d) /\
    through (Ok f) SDeliver_Decode = through (Ok g) SDeliver_Decode /\
    (zlen (sd_SPNumber d) <= 28 + zlen (sd_Content d) -> f = g).
Proof.
  intros d (Hc & Hq & Hl & Hl2 & _ & _ & _ & Hm). pose proof (zlen_nonneg (sd_Content d)) as C0.
  unfold SDeliver_Encode. cbn [cut_sp sd_h sd_UserNumber sd_SPNumber sd_TpPid sd_TpUdhi sd_Coding sd_MessageLength sd_Content sd_Reserve].
  rewrite shead_Encode_ok by lia. cbn [bind]. set (f0 := render _ ++ _).
  assert (L0 : zlen f0 = 77 + zlen (sd_Content d)) by (unfold f0; rewrite zlen_app, zlen_head20, zlen_repeat; lia).
  clearbody f0. destruct (copy_open_splice f0 20 (sd_UserNumber d) ltac:(lia)) as (E1 & B1). rewrite E1. cbn [bind].
  set (f1 := splice f0 20 _). assert (L1 : zlen f1 = zlen f0) by (apply zlen_splice; auto; lia). clearbody f1.
  destruct (differ_cut f1 41 (sd_SPNumber d) 21) as (a & b & Ea & Eb & La & D); try lia.
  rewrite Ea, Eb. cbn [bind]. clear Ea Eb E1 B1. change (41 + Z.of_nat 21) with 62 in D. set (hi := 41 + _) in D.
  assert (Lb : zlen b = zlen f1) by (destruct D; lia).
  rewrite (set_at_splice a), (set_at_splice b) by lia. cbn [bind].
  apply (differ_shrink _ _ _ _ [sd_TpPid d]) in D; [|lia|change (zlen [sd_TpPid d]) with 1; lia]. change (62 + zlen [sd_TpPid d]) with 63 in D.
  assert (La2 : zlen (splice a 62 [sd_TpPid d]) = zlen f1) by (rewrite zlen_splice; [auto|lia|change (zlen [sd_TpPid d]) with 1; lia]).
  revert La2 D. generalize (splice a 62 [sd_TpPid d]) (splice b 62 [sd_TpPid d]). clear a b La Lb. intros a b La D.
  assert (Lb : zlen b = zlen f1) by (destruct D; lia).
  rewrite (set_at_splice a), (set_at_splice b) by lia. cbn [bind].
  apply (differ_shrink _ _ _ _ [sd_TpUdhi d]) in D; [|lia|change (zlen [sd_TpUdhi d]) with 1; lia]. change (63 + zlen [sd_TpUdhi d]) with 64 in D.
  assert (La2 : zlen (splice a 63 [sd_TpUdhi d]) = zlen f1) by (rewrite zlen_splice; [auto|lia|change (zlen [sd_TpUdhi d]) with 1; lia]).
  revert La2 D. generalize (splice a 63 [sd_TpUdhi d]) (splice b 63 [sd_TpUdhi d]). clear a b La Lb. intros a b La D.
  assert (Lb : zlen b = zlen f1) by (destruct D; lia).
  rewrite (set_at_splice a), (set_at_splice b) by lia. cbn [bind].
  apply (differ_shrink _ _ _ _ [sd_Coding d]) in D; [|lia|change (zlen [sd_Coding d]) with 1; lia]. change (64 + zlen [sd_Coding d]) with 65 in D.
  assert (La2 : zlen (splice a 64 [sd_Coding d]) = zlen f1) by (rewrite zlen_splice; [auto|lia|change (zlen [sd_Coding d]) with 1; lia]).
  revert La2 D. generalize (splice a 64 [sd_Coding d]) (splice b 64 [sd_Coding d]). clear a b La Lb. intros a b La D.
  assert (Lb : zlen b = zlen f1) by (destruct D; lia).
  rewrite (put_be_splice a), (put_be_splice b) by lia. cbn [bind].
  assert (L4 : forall v, zlen (be 4 v) = 4) by (intros v; rewrite zlen_be; reflexivity).
  apply (differ_shrink _ _ _ _ (be 4 (sd_MessageLength d))) in D; [|lia|rewrite L4; lia]. rewrite L4 in D. change (65 + 4) with 69 in D.
  set (a1 := splice a 65 _) in *. set (b1 := splice b 65 _) in *.
  assert (La1 : zlen a1 = zlen f1) by (unfold a1; rewrite zlen_splice; rewrite ?L4; lia).
  assert (Lb1 : zlen b1 = zlen f1) by (destruct D; lia).
  assert (G : get_be 4 a1 65 (zlen a1) = Ok (zlen (sd_Content d))).
  { rewrite La1, <- La. unfold a1. rewrite Hm. apply get_be_there; lia. }
  clearbody a1 b1. clear a b La Lb.
  destruct (copy_open_splice a1 69 (sd_Content d) ltac:(lia)) as (Ea & _). rewrite Ea. clear Ea.
  destruct (copy_open_splice b1 69 (sd_Content d) ltac:(lia)) as (Eb & _). rewrite Eb. clear Eb. cbn [bind].
  rewrite !firstn_all2 by (unfold zlen, bytes in *; lia).
  apply (differ_shrink _ _ _ _ (sd_Content d)) in D; [|lia|lia].
  set (a2 := splice a1 69 _) in *. set (b2 := splice b1 69 _) in *.
  assert (La2 : zlen a2 = zlen f1) by (unfold a2; rewrite zlen_splice; lia).
  assert (Lb2 : zlen b2 = zlen f1) by (destruct D; lia).
  assert (G2 : get_be 4 a2 65 (zlen a2) = Ok (zlen (sd_Content d))).
  { rewrite <- G. apply (differ_get 69 (69 + zlen (sd_Content d))); [|lia]. unfold a2. apply differ_one; lia. }
  clearbody a2 b2.
  destruct (copy_open_splice a2 (69 + zlen (sd_Content d)) (sd_Reserve d) ltac:(lia)) as (Ea & Ba). rewrite Ea. clear Ea.
  destruct (copy_open_splice b2 (69 + zlen (sd_Content d)) (sd_Reserve d) ltac:(lia)) as (Eb & Bb). rewrite Eb. clear Eb.
  rewrite Lb2, <- La2. set (rv := firstn _ (sd_Reserve d)) in *.
  apply (differ_splice _ _ _ _ (69 + zlen (sd_Content d)) rv) in D; [|lia|lia].
  assert (G3 : get_be 4 (splice a2 (69 + zlen (sd_Content d)) rv) 65 (zlen (splice a2 (69 + zlen (sd_Content d)) rv)) = Ok (zlen (sd_Content d))).
  { rewrite <- G2. apply (differ_get 69 (zlen a2)); [|lia]. apply differ_one; lia. }
  assert (La3 : zlen (splice a2 (69 + zlen (sd_Content d)) rv) = zlen f1) by (rewrite zlen_splice; lia).
  revert D G3 La3. generalize (splice a2 (69 + zlen (sd_Content d)) rv) (splice b2 (69 + zlen (sd_Content d)) rv).
  clear - L0 L1 Hl C0 hi. intros a b D G La. exists a, b. split; [reflexivity|]. split; [reflexivity|]. split; [lia|]. split.
  - apply (through_differ _ _ _ _ _ D); [lia|lia|]. intros n. unfold SDeliver_Decode.
    pose proof (differ_skip 12 _ _ _ _ D ltac:(lia)) as Ds. change (Z.of_nat 12) with 12 in Ds.
    assert (Gs : get_be 4 (skipn 12 a) 53 (zlen (skipn 12 a)) = Ok (zlen (sd_Content d))).
    { rewrite <- G. unfold get_be, slice.
      assert (Z12 : zlen (skipn 12 a) = zlen a - 12) by (unfold zlen, bytes in *; rewrite skipn_length; lia). rewrite Z12.
      replace ((0 <=? 53) && (53 <=? zlen a - 12) && (zlen a - 12 <=? zlen a - 12)) with true by lia.
      replace ((0 <=? 65) && (65 <=? zlen a) && (zlen a <=? zlen a)) with true by lia. cbn [bind].
      rewrite skipn_skipn. replace (Z.to_nat (zlen a - 12 - 53)) with (Z.to_nat (zlen a - 65)) by lia. reflexivity. }
    rewrite <- !(differ_get _ _ _ _ 0 Ds), <- !(differ_get _ _ _ _ 4 Ds) by lia.
    rewrite <- !(differ_get _ _ _ _ 53 Ds) by lia. rewrite Gs.
    rewrite <- (differ_slice _ _ _ _ 8 29 Ds), <- (differ_slice _ _ _ _ 29 50 Ds) by lia.
    rewrite <- (differ_at _ _ _ _ 50 Ds), <- (differ_at _ _ _ _ 51 Ds), <- (differ_at _ _ _ _ 52 Ds) by lia.
    assert (Z12 : zlen (skipn 12 b) = zlen (skipn 12 a)) by (destruct Ds; auto). rewrite Z12.
    do 7 (match goal with |- bind ?x _ = bind ?x _ => destruct x; cbn [bind]; [|reflexivity|reflexivity] end).
    rewrite <- (differ_slice _ _ _ _ 57 (57 + zlen (sd_Content d)) Ds) by lia. reflexivity.
  - intros Hs. apply (differ_none _ _ _ _ D). unfold hi. lia.
Qed.

Definition cut_sreport (r : sreport) : sreport :=
  SReport (st_h r) (st_MtSequence r) (st_ReportType r) (cut 21 (st_UserNumber r)) (st_State r) (st_ErrorCode r) (st_Reserve r).
(** Over-long numbers of a report: likewise; up to 23 bytes nothing at all is different. *)
Theorem C41_sgip_report : forall r, sh_len (st_h r) = 64 -> zlen (st_MtSequence r) = 3 ->
  exists f g, SReport_Encode r = Ok f /\ SReport_Encode (cut_sreport r) = Ok g /\ zlen f = 64 /\
    through (Ok f) SReport_Decode = through (Ok g) SReport_Decode /\
    (zlen (st_UserNumber r) <= 23 -> f = g).
Proof.
  intros r Hl Hm. destruct (st_MtSequence r) as [|m0 [|m1 [|m2 [|m3 ms]]]] eqn:Em; try (cbv in Hm; discriminate);
    [|exfalso; unfold zlen in Hm; cbn [length] in Hm; lia].
  unfold SReport_Encode. cbn [cut_sreport st_h st_MtSequence st_ReportType st_UserNumber st_State st_ErrorCode st_Reserve].
  rewrite shead_Encode_ok, Em by lia. cbn [bind put_seqs]. set (f0 := render _ ++ _).
  assert (L0 : zlen f0 = 64) by (unfold f0; rewrite zlen_app, zlen_head20, zlen_repeat; lia).
  clearbody f0. assert (L4 : forall v, zlen (be 4 v) = 4) by (intros v; rewrite zlen_be; reflexivity).
  do 3 (rewrite put_be_splice by (repeat match goal with |- context [zlen (splice _ _ _)] => rewrite zlen_splice end; rewrite ?L4; lia); cbn [bind]).
  change (20 + 4 + 4 + 4) with 32. set (f1 := splice _ _ _).
  assert (L1 : zlen f1 = 64) by (unfold f1; repeat match goal with |- context [zlen (splice _ _ _)] => rewrite zlen_splice end; rewrite ?L4; lia).
  clearbody f1. assert (O1 : forall x : Z, zlen [x] = 1) by reflexivity.
  rewrite set_at_splice by lia. cbn [bind]. set (f2 := splice _ _ _).
  assert (L2 : zlen f2 = 64) by (unfold f2; rewrite zlen_splice; rewrite ?O1; lia). clearbody f2.
  cbv zeta. change (32 + 1) with 33. change (33 + 21) with 54. change (54 + 1) with 55. change (55 + 1) with 56.
  destruct (differ_cut f2 33 (st_UserNumber r) 21) as (a & b & Ea & Eb & La & D); try lia.
  rewrite Ea, Eb. cbn [bind]. clear Ea Eb. change (33 + Z.of_nat 21) with 54 in D. set (hi := 33 + _) in D.
  assert (Lb : zlen b = 64) by (destruct D; lia).
  rewrite (set_at_splice a), (set_at_splice b) by lia. cbn [bind].
  apply (differ_shrink _ _ _ _ [u8 (st_State r)]) in D; [|lia|rewrite O1; lia]. rewrite O1 in D. change (54 + 1) with 55 in D.
  assert (La2 : zlen (splice a 54 [u8 (st_State r)]) = 64) by (rewrite zlen_splice; rewrite ?O1; lia).
  revert La2 D. generalize (splice a 54 [u8 (st_State r)]) (splice b 54 [u8 (st_State r)]). clear a b La Lb. intros a b La D.
  assert (Lb : zlen b = 64) by (destruct D; lia).
  rewrite (set_at_splice a), (set_at_splice b) by lia. cbn [bind].
  apply (differ_shrink _ _ _ _ [st_ErrorCode r]) in D; [|lia|rewrite O1; lia]. rewrite O1 in D. change (55 + 1) with 56 in D.
  assert (La2 : zlen (splice a 55 [st_ErrorCode r]) = 64) by (rewrite zlen_splice; rewrite ?O1; lia).
  revert La2 D. generalize (splice a 55 [st_ErrorCode r]) (splice b 55 [st_ErrorCode r]). clear a b La Lb. intros a b La D.
  assert (Lb : zlen b = 64) by (destruct D; lia).
  destruct (copy_open_splice a 56 (st_Reserve r) ltac:(lia)) as (Ea & Ba). rewrite Ea. clear Ea.
  destruct (copy_open_splice b 56 (st_Reserve r) ltac:(lia)) as (Eb & Bb). rewrite Eb. clear Eb.
  rewrite Lb, La in *. set (rv := firstn _ (st_Reserve r)) in *.
  apply (differ_splice _ _ _ _ 56 rv) in D; [|lia|lia].
  assert (La3 : zlen (splice a 56 rv) = 64) by (rewrite zlen_splice; lia).
  revert D La3. generalize (splice a 56 rv) (splice b 56 rv).
  subst hi. clear. intros a b D La. exists a, b. split; [reflexivity|]. split; [reflexivity|]. split; [lia|]. split.
  - apply (through_differ _ _ _ _ _ D); [lia|lia|]. intros n. unfold SReport_Decode.
    pose proof (differ_skip 12 _ _ _ _ D ltac:(lia)) as Ds. change (Z.of_nat 12) with 12 in Ds. change (56 - 12) with 44 in Ds.
    rewrite <- !(differ_get _ _ _ _ 0 Ds), <- !(differ_get _ _ _ _ 4 Ds), <- !(differ_get _ _ _ _ 8 Ds),
      <- !(differ_get _ _ _ _ 12 Ds), <- !(differ_get _ _ _ _ 16 Ds) by lia.
    rewrite <- (differ_slice _ _ _ _ 21 42 Ds) by lia.
    rewrite <- (differ_at _ _ _ _ 20 Ds), <- (differ_at _ _ _ _ 42 Ds), <- (differ_at _ _ _ _ 43 Ds) by lia.
    assert (Z12 : zlen (skipn 12 b) = zlen (skipn 12 a)) by (destruct Ds; auto). rewrite Z12. reflexivity.
  - intros Hs. apply (differ_none _ _ _ _ D). lia.
Qed.

(** An over-long sender's number of a deliver is not cut: it shows behind the service number. *)
Definition dspill (d : sdeliver) : sdeliver :=
  SDeliver (sd_h d) (firstn 21 (sd_UserNumber d)) (sd_SPNumber d ++ skipn (21 + length (sd_SPNumber d)) (sd_UserNumber d))
    (sd_TpPid d) (sd_TpUdhi d) (sd_Coding d) (sd_MessageLength d) (sd_Content d) (sd_Reserve d).
Lemma dspill_encode d : 62 <= sh_len (sd_h d) -> 21 + zlen (sd_SPNumber d) <= zlen (sd_UserNumber d) <= 42 ->
  SDeliver_Encode d = SDeliver_Encode (dspill d).
Proof.
  intros Hl Hs. unfold SDeliver_Encode. cbn [dspill sd_h sd_UserNumber sd_SPNumber sd_TpPid sd_TpUdhi sd_Coding sd_MessageLength sd_Content sd_Reserve].
  rewrite shead_Encode_ok by lia. cbn [bind]. set (f0 := render _ ++ _).
  assert (L0 : 62 <= zlen f0) by (unfold f0; rewrite zlen_app, zlen_head20, zlen_repeat; lia).
  clearbody f0. set (u := sd_UserNumber d) in *. set (sp := sd_SPNumber d) in *. pose proof (zlen_nonneg sp) as S0.
  assert (Lu : length u = Z.to_nat (zlen u)) by (unfold zlen, bytes in *; lia).
  assert (Lsp : length sp = Z.to_nat (zlen sp)) by (unfold zlen, bytes in *; lia).
  assert (A : (f1 <- copy_open f0 20 u ;; copy_open f1 41 sp) = (f1 <- copy_open f0 20 (firstn 21 u) ;; copy_open f1 41 (sp ++ skipn (21 + length sp) u))).
  { assert (L1 : zlen (firstn 21 u) = 21) by (unfold zlen, bytes in *; rewrite firstn_length; lia).
    assert (L2 : zlen (skipn (21 + length sp) u) = zlen u - 21 - zlen sp) by (unfold zlen, bytes in *; rewrite skipn_length; lia).
    assert (F1 : forall (s : bytes) k, 0 <= k -> k + zlen s <= zlen f0 -> forall x : bytes, zlen x = zlen f0 -> copy_open x k s = Ok (splice x k s)).
    { intros s k H1 H2 x Hx. destruct (copy_open_splice x k s) as (-> & _); [pose proof (zlen_nonneg s); lia|].
      rewrite firstn_all2; auto. unfold zlen, bytes in *. lia. }
    rewrite (F1 u 20), (F1 (firstn 21 u) 20) by (auto; lia). cbn [bind].
    rewrite (F1 sp 41), (F1 (sp ++ _) 41) by (rewrite ?zlen_app; rewrite ?zlen_splice; lia). f_equal.
    apply (differ_none 0 0); [|lia]. split; [rewrite !zlen_splice; rewrite ?zlen_splice; rewrite ?zlen_app; lia|].
    intros i _. rewrite nth_splice by (rewrite ?zlen_splice; lia). rewrite nth_splice by lia.
    rewrite (nth_splice (splice f0 20 (firstn 21 u))) by (rewrite ?zlen_splice; rewrite ?zlen_app; lia). rewrite (nth_splice f0 20 (firstn 21 u)) by lia.
    rewrite zlen_app, L1, L2.
    assert (NU : forall j, (j < 21)%nat -> nth_error (firstn 21 u) j = nth_error u j).
    { intros j Hj. rewrite <- (firstn_skipn 21 u) at 2. rewrite nth_error_app1; auto. rewrite firstn_length. lia. }
    destruct (41 <=? Z.of_nat i) eqn:E1; cbn [andb].
    - destruct (Z.of_nat i <? 41 + zlen sp) eqn:E2.
      + replace (Z.of_nat i <? 41 + (zlen sp + (zlen u - 21 - zlen sp))) with true by lia. rewrite nth_error_app1 by lia. reflexivity.
      + replace (20 <=? Z.of_nat i) with true by lia. cbn [andb].
        replace (Z.of_nat i <? 41 + (zlen sp + (zlen u - 21 - zlen sp))) with (Z.of_nat i <? 20 + zlen u) by lia.
        replace (Z.of_nat i <? 20 + 21) with false by lia.
        destruct (Z.of_nat i <? 20 + zlen u); [|reflexivity]. rewrite nth_error_app2 by lia.
        rewrite <- (firstn_skipn (21 + length sp) u) at 1. rewrite nth_error_app2 by (rewrite firstn_length; lia).
        rewrite firstn_length. f_equal. lia.
    - destruct (20 <=? Z.of_nat i) eqn:E2; cbn [andb]; [|reflexivity].
      replace (Z.of_nat i <? 20 + zlen u) with true by lia. replace (Z.of_nat i <? 20 + 21) with true by lia.
      rewrite NU by lia. reflexivity. }
  assert (Q : forall {X Y W} (m : res X) (k : X -> res Y) (k2 : Y -> res W), (x <- m ;; (y <- k x ;; k2 y)) = (y <- (x <- m ;; k x) ;; k2 y)).
  { intros X Y W [x| |] k k2; reflexivity. }
  rewrite !Q, A. reflexivity.
Qed.
Theorem C41_refuted_deliver : forall d, sdeliver_wf d -> sd_Reserve d = [] -> ~ In 0 (sd_UserNumber d) -> ~ In 0 (sd_SPNumber d) ->
  21 + zlen (sd_SPNumber d) < zlen (sd_UserNumber d) <= 42 ->
  exists e, through (SDeliver_Encode d) SDeliver_Decode = Ok (sh_len (sd_h d), 4, e) /\
    sd_SPNumber e = sd_SPNumber d ++ skipn (21 + length (sd_SPNumber d)) (sd_UserNumber d) /\ sd_SPNumber e <> sd_SPNumber d.
Proof.
  intros d Hw Hr N1 N2 Hs. exists (dspill d). pose proof (zlen_nonneg (sd_Content d)).
  rewrite dspill_encode by (destruct Hw as (_ & _ & -> & _); lia).
  destruct (C40_deliver (dspill d)) as (_ & E).
  - destruct Hw as (W1 & W2 & W3 & W4 & W5 & W6 & W7 & W8). repeat (split; [assumption|]). assumption.
  - assert (forall (l : bytes) n, ~ In 0 l -> ~ In 0 (firstn n l)) as X1.
    { intros l n H0 HI. apply H0. rewrite <- (firstn_skipn n l). apply in_app_iff. auto. }
    assert (forall (l : bytes) n, ~ In 0 l -> ~ In 0 (skipn n l)) as X2.
    { intros l n H0 HI. apply H0. rewrite <- (firstn_skipn n l). apply in_app_iff. auto. }
    unfold sdeliver_fits, fits, dspill. cbn [sd_UserNumber sd_SPNumber sd_Reserve]. rewrite Hr. rewrite in_app_iff.
    unfold zlen, bytes in *. rewrite app_length, firstn_length, skipn_length. cbn [length In].
    repeat split; try lia; try tauto; auto. intros [|HI]; [auto|]. exact (X2 _ _ N1 HI).
  - exact Hr.
  - split; [exact E|]. cbn [dspill sd_SPNumber]. split; [reflexivity|]. intros X. apply (f_equal (@length Z)) in X.
    rewrite app_length, skipn_length in X. unfold zlen, bytes in *. lia.
Qed.

(** A 30 byte service number, a 23 byte sender's number. *)
Example C41_case_sgip :
  (let d := SDeliver (SHead 79 4 (1, 2, 3)) [49;51] (repeat 66 30) 0 0 0 2 [72;105] [] in
   f <- SDeliver_Encode d ;; g <- SDeliver_Encode (cut_sp d) ;; Ok (zlen f, if list_eq_dec Z.eq_dec f g then true else false)) = Ok (79, true)
  /\ (let d := SDeliver (SHead 79 4 (1, 2, 3)) (repeat 51 21 ++ [52;53]) [66] 0 0 0 2 [72;105] [] in
      '(_, _, e) <- through (SDeliver_Encode d) SDeliver_Decode ;; Ok (sd_SPNumber e)) = Ok [66;53]
  /\ (let r := SReport (SHead 64 5 (1, 2, 3)) [1; 2; 3] 0 (repeat 51 24) 0 0 [] in
      f <- SReport_Encode r ;; g <- SReport_Encode (cut_sreport r) ;; Ok (skipn 53 f, skipn 53 g))
     = Ok ([51;0;0;51;0;0;0;0;0;0;0], [51;0;0;0;0;0;0;0;0;0;0]).
Proof. vm_compute. auto. Qed.
Print Assumptions C41_sgip_deliver.
Print Assumptions C41_sgip_report.
Print Assumptions C41_refuted_deliver.

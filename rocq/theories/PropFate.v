(** * PropFate: the delivery reports a server sends (C110). *)
From Verif Require Import Base UtilsModel UtilsProofs OptionsModel SpecText SpecWire SpecFrame SpecCmpp SpecSmgp CmppModel WireProofs CmppSubmitProofs PropCmpp CmppBuildProofs SgipModel SmgpModel SmgpProofs
  FrameModel SpecServer ServerModel ServerProofs PropServer PropWindow PropResponses PropCmpp2 PropAnswers.
From Verif Require PropAck PropPong PropWhy PropTick PropLog PropEnd PropSubmitEnd.

(** ** Specification, by the octets on the wire *)
(** [n] octets from place [i] on; the text in a field ends at the first zero octet. *)
Definition oct (b : bytes) (i n : nat) : bytes := firstn n (skipn i b).
Fixpoint upto0 (l : bytes) : bytes := match l with [] => [] | x :: r => if x =? 0 then [] else x :: upto0 r end.
Definition same (l m : bytes) : bool := if list_eq_dec Z.eq_dec l m then true else false.
(** An answer to a submit that says the message was taken (status 0), and the id it gives the message. *)
Definition positive (p : proto) (b : bytes) : bool :=
  match p with
  | P_CMPP => same (oct b 4 4) [128; 0; 0; 4] && forallb (Z.eqb 0) (skipn 20 b)
  | P_SGIP => same (oct b 4 4) [128; 0; 0; 3] && (nth 20 b 0 =? 0)
  | P_SMGP => same (oct b 4 4) [128; 0; 0; 2] && same (oct b 22 4) [0; 0; 0; 0]
  end.
Definition given (p : proto) (b : bytes) : bytes := oct b 12 (match p with P_SMGP => 10 | _ => 8 end).
(** A delivery report.  CMPP: a deliver (5) with Registered_Delivery 1 and 60 octets of content; in version
    3 (169 octets in all) the sender's number has 32 octets and a type octet, else (145 octets) 21.
    SGIP: a report (5).  SMGP: a deliver (3) with IsReport 1, whose content starts with "id:" and the id. *)
Definition reported (p : proto) (b : bytes) : bool :=
  match p with
  | P_CMPP => same (oct b 4 4) [0; 0; 0; 5] &&
              ((zlen b =? 145) && (nth 75 b 0 =? 1) && (nth 76 b 0 =? 60) || (zlen b =? 169) && (nth 87 b 0 =? 1) && (nth 88 b 0 =? 60))
  | P_SGIP => same (oct b 4 4) [0; 0; 0; 5]
  | P_SMGP => same (oct b 4 4) [0; 0; 0; 3] && (nth 22 b 0 =? 1)
  end.
Definition three (b : bytes) : bool := zlen b =? 169.
(** the id of the message it is about *)
Definition tells (p : proto) (b : bytes) : bytes :=
  match p with P_SMGP => oct b 84 10 | _ => oct b (if three b then 89 else 77) 8 end.
(** the number it is about, in the packet and (CMPP) once more in its content *)
Definition about (p : proto) (b : bytes) : bytes :=
  upto0 (match p with P_SMGP => oct b 38 21 | _ => if three b then oct b 54 32 else oct b 54 21 end).
Definition about2 (p : proto) (b : bytes) : bytes :=
  match p with P_SMGP => about p b | _ => upto0 (if three b then oct b 124 21 else oct b 112 21) end.
(** the service number it goes to *)
Definition toward (p : proto) (b : bytes) : bytes := upto0 (match p with P_SMGP => oct b 59 21 | _ => oct b 20 21 end).
(** Of a submit: how many recipients it has, the first of them, the service number it comes from, and
    whether it asks for a report ([v3]: it is laid out as CMPP version 3). *)
Definition many (p : proto) (v3 : bool) (k : packet) : Z :=
  match p with P_SMGP => nth 104 (pk_body k) 0 | _ => nth (if v3 then 128 else 116) (pk_body k) 0 end.
Definition recipient (p : proto) (v3 : bool) (k : packet) : bytes :=
  upto0 (match p with P_SMGP => oct (pk_body k) 105 21 | _ => if v3 then oct (pk_body k) 129 32 else oct (pk_body k) 117 21 end).
Definition sender (p : proto) (v3 : bool) (k : packet) : bytes :=
  upto0 (match p with P_SMGP => oct (pk_body k) 62 21 | _ => oct (pk_body k) (if v3 then 107 else 95) 21 end).
Definition asks (p : proto) (k : packet) : Prop := nth (match p with P_SMGP => 1 | _ => 10 end) (pk_body k) 0 = 1.
(** The report [b] is about the message of the submit [k]: its number is the (first) recipient's, and it
    goes to the number the submit came from.  (Beyond 12 recipients CMPP version 2 submits are not read
    right, see C34.) *)
Definition readable (p : proto) (v3 : bool) (k : packet) : Prop := 1 <= many p v3 k /\ (p = P_CMPP -> v3 = false -> many p v3 k <= 12).
Definition concerns (p : proto) (k : packet) (b : bytes) : Prop :=
  toward p b = sender p (three b) k /\
  (readable p (three b) k -> about p b = recipient p (three b) k /\ about2 p b = firstn 21 (recipient p (three b) k)).
(** What the generators and clocks hand out has its fixed width, and no simulated incoming message is a report (C77). *)
Definition values_ok (p : proto) (es : list (event * orc)) : Prop :=
  Forall (fun e => zlen (o_id (snd e)) = 10 /\ zlen (o_rid (snd e)) = 10 /\ zlen (o_t2 (snd e)) = 10 /\ zlen (o_t3 (snd e)) = 10 /\ 0 <= o_sec (snd e) /\
                   forall b, o_dly (snd e) = Some b -> reported p b = false /\ positive p b = false) es.

(** ** Octets *)
Lemma same_iff l m : same l m = true <-> l = m.
Proof. unfold same. destruct (list_eq_dec Z.eq_dec l m); split; congruence. Qed.
Lemma trim_upto s : TrimStr s = upto0 s.
Proof. induction s as [|x s IH]; [reflexivity|]. cbn. destruct (x =? 0); [reflexivity|]. rewrite IH. reflexivity. Qed.
Lemma upto_firstn n s : firstn n (upto0 s) = upto0 (firstn n s).
Proof. revert s. induction n as [|n IH]; intros [|x s]; try reflexivity. cbn. destruct (x =? 0); [reflexivity|]. cbn. rewrite IH. reflexivity. Qed.
Lemma upto_zeros s n : upto0 (upto0 s ++ repeat 0 n) = upto0 s.
Proof. induction s as [|x s IH]; cbn; [destruct n; reflexivity|]. destruct (x =? 0) eqn:E; [destruct n; reflexivity|]. cbn. rewrite E, IH. reflexivity. Qed.
Lemma upto_fit w s : upto0 (fit w (upto0 s)) = upto0 (firstn w s).
Proof. unfold fit. rewrite upto_firstn. apply upto_zeros. Qed.
Lemma oct_skip a r i n m : length a = m -> (m <= i)%nat -> oct (a ++ r) i n = oct r (i - m) n.
Proof. intros <- H. unfold oct. rewrite skipn_app, (skipn_all2 a) by lia. reflexivity. Qed.
Lemma oct_here a r n : length a = n -> oct (a ++ r) 0 n = a.
Proof. intros <-. unfold oct. cbn [skipn]. rewrite firstn_app, Nat.sub_diag, firstn_all, app_nil_r. reflexivity. Qed.
Lemma nth_skip (a r : bytes) i m : length a = m -> (m <= i)%nat -> nth i (a ++ r) 0 = nth (i - m) r 0.
Proof. intros <- H. apply app_nth2. exact H. Qed.
Lemma nth_be1 v r : is_byte v -> nth 0 (be 1 v ++ r) 0 = v.
Proof. intros H. rewrite be1 by exact H. reflexivity. Qed.
Ltac len := first [apply length_be|apply length_fit|eassumption|cbn; reflexivity].
Ltac walk := repeat first
  [ rewrite oct_here by len
  | rewrite nth_be1 by (unfold is_byte; lia)
  | erewrite oct_skip; [|len|lia]; cbn [Nat.sub]
  | erewrite nth_skip; [|len|lia]; cbn [Nat.sub] ].

(** The octets of a CMPP report made for submit [s] under the id [m]. *)
Lemma cmpp_octets s m q nid nrep t1 t2 g : is_byte (sb_destTerminalType s) -> 0 <= m < 2 ^ 64 ->
  exists b, Delivery_Encode g (ToDeliveryReport s m q nid nrep t1 t2) = Ok b /\ reported P_CMPP b = true /\ three b = is_v3 (sb_version s) /\
    tells P_CMPP b = be 8 m /\ about P_CMPP b = upto0 (fit (if is_v3 (sb_version s) then 32 else 21) (sb_destTerminalId s)) /\
    about2 P_CMPP b = upto0 (fit 21 (sb_destTerminalId s)) /\ toward P_CMPP b = upto0 (fit 21 (sb_srcId s)).
Proof.
  intros HT HM. set (d := ToDeliveryReport s m q nid nrep t1 t2).
  assert (W : delivery_wf d).
  { unfold delivery_wf, delivery_base, d, ToDeliveryReport. cbn [dl_h dl_version dl_msgLength dl_msgId dl_tpPid dl_tpUdhi dl_msgFmt dl_srcTerminalType dl_registeredDelivery h_cmd h_len].
    split; [reflexivity|]. split; [destruct (is_v3 _); reflexivity|]. unfold u64, is_byte in *. repeat split; try lia; apply Z.mod_pos_bound; lia. }
  rewrite (Delivery_Encode_ok g d (render (report_body (NewReport m (sb_destTerminalId s) t1 t2 nrep))) W eq_refl).
  eexists. split; [reflexivity|].
  change (Z.to_nat (dl_msgLength d)) with 60%nat. rewrite (fit_exact 60) by (pose proof (zlen_report (NewReport m (sb_destTerminalId s) t1 t2 nrep)) as X; unfold zlen in X; lia).
  change (is_v3 (dl_version d)) with (is_v3 (sb_version s)). clear W.
  unfold d, ToDeliveryReport, NewReport, delivery_body, report_body, head. cbn [dl_h h_len h_seq dl_msgId dl_destId dl_serviceId dl_tpPid dl_tpUdhi dl_msgFmt dl_srcTerminalId dl_srcTerminalType dl_registeredDelivery dl_msgLength dl_linkID
    rp_msgId rp_stat rp_submitTime rp_doneTime rp_destTerminalId rp_smscSequence]. clear d.
  destruct (is_v3 (sb_version s)).
  - set (b := render _). assert (L : zlen b = 169) by (unfold b; rewrite zlen_render; cbn [app widths width]; rewrite zlen_render; reflexivity).
    assert (T3 : three b = true) by (unfold three; rewrite L; reflexivity).
    unfold reported, tells, about, about2, toward. rewrite T3, L. change (169 =? 145) with false. change (169 =? 169) with true. cbn [andb orb]. unfold b. clear b L T3.
    unfold render. cbn [app map concat render1]. rewrite <- !app_assoc. 
    walk. repeat split.
  - set (b := render _). assert (L : zlen b = 145) by (unfold b; rewrite zlen_render; cbn [app widths width]; rewrite zlen_render; reflexivity).
    assert (T3 : three b = false) by (unfold three; rewrite L; reflexivity).
    unfold reported, tells, about, about2, toward. rewrite T3, L. change (145 =? 145) with true. change (145 =? 169) with false. cbn [andb orb]. rewrite orb_false_r. unfold b. clear b L T3.
    unfold render. cbn [app map concat render1]. rewrite <- !app_assoc.
    walk. repeat split.
Qed.

Lemma smgp_octets ac mt q m rid now sec d1 d2 p rest : ms_destTermID mt = p :: rest -> 0 <= q < 2 ^ 32 -> zlen m = 10 -> zlen rid = 10 -> zlen d1 = 10 -> zlen d2 = 10 -> 0 <= sec ->
  exists d b, smgp_NewDeliveryReport ac mt q m rid now sec d1 d2 = Ok d /\ MDeliver_Encode d = Ok b /\ reported P_SMGP b = true /\
    tells P_SMGP b = m /\ about P_SMGP b = upto0 (fit 21 p) /\ toward P_SMGP b = upto0 (fit 21 (ms_srcTermID mt)).
Proof.
  intros Hdst Hs Hm Hi L1 L2 Hsec. unfold smgp_NewDeliveryReport. rewrite Hdst. change (at_ (p :: rest) 0) with (Ok p). cbn [bind].
  set (r := smgp_NewReport m sec d1 d2).
  assert (Hw : mreport_wf r).
  { unfold mreport_wf, r, smgp_NewReport. cbn [mp_id mp_sub mp_dlvrd mp_submitDate mp_doneDate mp_stat mp_err].
    repeat (split; [first [reflexivity|auto]|]); [|reflexivity].
    unfold stat_of. destruct (_ =? 0); [reflexivity|]. destruct (_ || _); reflexivity. }
  set (d := MDeliver _ _ _ _ _ _ _ _ _ _ _ _ _).
  assert (Hd : mdeliver_wf d (render (mreport_body r))).
  { unfold mdeliver_wf, d. rewrite zlen_mreport_body by auto.
    cbn [md_h md_msgId md_isReport md_msgFormat md_msgLength h_cmd h_seq h_len]. unfold RptLen.
    split; [reflexivity|]. split; [auto|]. split; [reflexivity|]. split; [lia|]. split; [auto|]. unfold is_byte. lia. }
  exists d. eexists. split; [reflexivity|].
  split. { apply (MDeliver_Encode_ok d (render (mreport_body r))); auto.
    - unfold mdeliver_content. cbn [md_isReport md_report d]. change (1 =? 1) with true. cbv iota. apply mreport_Encode_ok; auto.
    - intros; apply zlen_mreport_body; auto. }
  unfold reported, tells, about, toward, d, mdeliver_body, mreport_body, head, r, smgp_NewReport. cbn [md_h h_len h_seq md_msgId md_isReport md_msgFormat md_recvTime md_srcTermID md_destTermID md_msgLength md_reserve
    mp_id mp_sub mp_dlvrd mp_submitDate mp_doneDate mp_stat mp_err]. clear d r Hd Hw.
  unfold render. cbn [app map concat render1]. rewrite <- !app_assoc.
  assert (M1 : length m = 10%nat) by (unfold zlen in Hm; lia). assert (M2 : length rid = 10%nat) by (unfold zlen in Hi; lia).
  walk. repeat split.
Qed.

(** ** The submit it is made for *)
Lemma slice_oct f lo hi w : slice f lo hi = Ok w -> w = oct f (Z.to_nat lo) (Z.to_nat (hi - lo)) /\ length w = Z.to_nat (hi - lo).
Proof.
  unfold slice, oct. destruct (_ && _) eqn:G; [|discriminate]. intros E. assert (X : firstn (Z.to_nat (hi - lo)) (skipn (Z.to_nat lo) f) = w) by congruence. subst w.
  split; [reflexivity|]. rewrite !andb_true_iff in G. rewrite firstn_length, skipn_length. unfold zlen in G. lia.
Qed.
Lemma at_nth f i v : at_ f i = Ok v -> v = nth (Z.to_nat i) f 0.
Proof.
  unfold at_. destruct (_ && _); [|discriminate]. destruct (nth_error f (Z.to_nat i)) eqn:E; [|discriminate]. intros H. injection H as <-. symmetry. apply nth_error_nth. exact E.
Qed.
Lemma byte_nth f i : bytes_ok f -> is_byte (nth i f 0).
Proof. intros H. destruct (nth_in_or_default i f 0) as [X| ->]; [|unfold is_byte; lia]. exact (proj1 (Forall_forall _ _) H _ X). Qed.
Lemma oct_oct f i n m : (m <= n)%nat -> firstn m (oct f i n) = oct f i m.
Proof. intros H. unfold oct. rewrite firstn_firstn. f_equal. lia. Qed.
Lemma fit_upto w f i n : (w <= n)%nat -> upto0 (fit w (TrimStr (oct f i n))) = upto0 (oct f i w).
Proof. intros H. rewrite (trim_upto (oct f i n)). rewrite upto_fit. rewrite (oct_oct f i n w H). reflexivity. Qed.
Lemma cmpp_sub ver seq f s k : Submit_Decode ver seq f = Ok s -> f = pk_body k -> bytes_ok f ->
  sb_version s = ver /\ is_byte (sb_destTerminalType s) /\ upto0 (fit 21 (sb_srcId s)) = sender P_CMPP (is_v3 ver) k /\
  (readable P_CMPP (is_v3 ver) k -> upto0 (fit (if is_v3 ver then 32 else 21) (sb_destTerminalId s)) = recipient P_CMPP (is_v3 ver) k /\
     upto0 (fit 21 (sb_destTerminalId s)) = firstn 21 (recipient P_CMPP (is_v3 ver) k)).
Proof.
  intros D E Hb. unfold Submit_Decode in D. inv_bind D. injection D as <-. cbn [sb_version sb_destTerminalType sb_srcId sb_destTerminalId].
  unfold sender, readable, many, recipient. rewrite <- E. clear E. split; [reflexivity|]. destruct (is_v3 ver).
  - apply bind_ok in E6 as (? & _ & E6). apply bind_ok in E6 as (? & _ & E6). injection E6 as <- <- <-. assert (is_byte z1) by (apply bind_ok in E18 as (v & A & B); apply at_nth in A; assert (v = z1) as <- by congruence; rewrite A; apply byte_nth; exact Hb).
    apply slice_oct in E15 as [-> _]. apply at_nth in E16. apply slice_oct in E17 as [-> _]. clear - E16 H.
    match type of E16 with _ = nth ?n f 0 => change n with 128%nat in E16 end. match goal with |- context [oct f ?i ?n] => change (oct f i n) with (oct f 107 21) end.
    split; [exact H|]. split; [apply fit_upto; lia|]. intros [M _]. rewrite <- E16 in M.
    match goal with |- context [oct f ?i ?n] => change i with 129%nat; replace n with (Z.to_nat (x14 * 32)) by lia end.
    rewrite !fit_upto by lia. rewrite upto_firstn, oct_oct by lia. auto.
  - apply bind_ok in E6 as (? & _ & E6). injection E6 as <- <- <-. assert (is_byte z1) by (assert (z1 = 0) as -> by congruence; unfold is_byte; lia).
    apply slice_oct in E15 as [-> _]. apply at_nth in E16. apply slice_oct in E17 as [-> _]. clear - E16 H.
    match type of E16 with _ = nth ?n f 0 => change n with 116%nat in E16 end. match goal with |- context [oct f ?i ?n] => change (oct f i n) with (oct f 95 21) end.
    split; [exact H|]. split; [apply fit_upto; lia|]. intros [M1 M2]. specialize (M2 eq_refl eq_refl). rewrite <- E16 in M1, M2.
    assert (W : u8 (x14 * 21) = x14 * 21) by (unfold u8; apply Z.mod_small; lia). rewrite W.
    match goal with |- context [oct f ?i ?n] => change i with 117%nat; replace n with (Z.to_nat (x14 * 21)) by lia end.
    rewrite !fit_upto by lia. rewrite upto_firstn, oct_oct by lia. auto.
Qed.
Lemma smgp_sub gbd ver seq f s k p l : MSubmit_Decode gbd ver seq f = Ok s -> f = pk_body k -> bytes_ok f -> ms_destTermID s = p :: l -> forall v3,
  upto0 (fit 21 (ms_srcTermID s)) = sender P_SMGP v3 k /\ upto0 (fit 21 p) = recipient P_SMGP v3 k.
Proof.
  intros D E Hb P v3. unfold MSubmit_Decode in D. inv_bind D. injection D as <-. cbn [ms_srcTermID ms_destTermID] in *.
  unfold sender, recipient. rewrite <- E. clear E.
  repeat match goal with H : slice f 62 83 = Ok _ |- _ => apply slice_oct in H as [-> _] end. split; [exact (fit_upto 21 f 62 21 (le_n _))|].
  match goal with H : get_terms f 105 ?n = Ok _ |- _ => destruct n as [|n']; cbn [get_terms] in H end; [congruence|].
  apply bind_ok in E13 as (q & Q & E13). apply bind_ok in E13 as ([r i] & _ & E13). injection E13 as <- <-. injection P as <- <-. apply slice_oct in Q as [-> _].
  exact (fit_upto 21 f 105 21 (le_n _)).
Qed.

(** The id an answer gives. *)
Definition id_of (a : reply) : bytes := match a with ACmpp x => be 8 (rs_msgId x) | ASmgp x => mr_msgId x | ASgip _ => [] end.
Lemma report_told pr ver k r o o' cid b : decode_submit pr ver k = Ok r -> bytes_ok (pk_body k) -> zlen (o_id o) = 10 ->
  zlen (o_rid o') = 10 -> zlen (o_t2 o') = 10 -> zlen (o_t3 o') = 10 -> 0 <= o_sec o' ->
  report_bytes pr r (submit_reply r 0 o) o' cid = Ok (Some b) ->
  pr_p pr <> P_SGIP /\ reported (pr_p pr) b = true /\ tells (pr_p pr) b = id_of (submit_reply r 0 o) /\ concerns (pr_p pr) k b.
Proof.
  unfold decode_submit. intros D Hb I1 I2 I3 I4 I5 E. destruct (pr_p pr) eqn:P; apply bind_ok in D as (s & D & X); injection X as <-; cbn [submit_reply report_bytes] in E; [| |]; try discriminate.
  - split; [discriminate|]. destruct (o_norep o'); [discriminate|]. apply bind_ok in E as (b' & E & X). assert (b' = b) by congruence. subst b'.
    destruct (cmpp_sub _ _ _ _ k D eq_refl Hb) as (V & TT & S1 & S2). cbn [submit_reply id_of Submit_ToResponse rs_msgId] in *. change (0 =? 0) with true in *. cbv iota in *.
    assert (M : 0 <= u64 (o_nid o) < 2 ^ 64) by (apply Z.mod_pos_bound; lia).
    destruct (cmpp_octets s (u64 (o_nid o)) (o_seq o') (o_nid o') (o_nrep o') (o_t1 o') (o_t2 o') (o_g o') TT M) as (b' & E' & R1 & R2 & R3 & R4 & R5 & R6).
    rewrite E' in E. assert (b' = b) by congruence. subst b'. rewrite V in *. split; [exact R1|]. split; [exact R3|]. unfold concerns. rewrite R2, R6, S1. split; [reflexivity|].
    intros RD. destruct (S2 RD) as [S3 S4]. rewrite R4, R5, S3, S4. auto.
  - split; [discriminate|]. destruct (o_norep o'); [discriminate|]. destruct (pr_find pr (o_gen o') cid) as [ac|]; [|discriminate]. apply bind_ok in E as (d & Ed & E). apply bind_ok in E as (b' & E & X). assert (b' = b) by congruence. subst b'.
    cbn [submit_reply id_of MSubmit_ToResponse mr_msgId] in *.
    destruct (ms_destTermID s) as [|p l] eqn:DD; [unfold smgp_NewDeliveryReport in Ed; rewrite DD in Ed; discriminate Ed|].
    assert (Q : 0 <= u32 (o_seq o') < 2 ^ 32) by (apply Z.mod_pos_bound; lia).
    destruct (smgp_octets ac s (u32 (o_seq o')) (o_id o) (o_rid o') (o_t1 o') (o_sec o') (o_t2 o') (o_t3 o') p l DD Q I1 I2 I3 I4 I5) as (d' & b' & E1 & E2 & R1 & R2 & R3 & R4).
    rewrite E1 in Ed. assert (d' = d) by congruence. subst d'. rewrite E2 in E. assert (b' = b) by congruence. subst b'.
    destruct (smgp_sub _ _ _ _ _ k p l D eq_refl Hb DD (three b)) as [S1 S2].
    split; [exact R1|]. split; [exact R2|]. unfold concerns. rewrite R4, S1. split; [reflexivity|]. intros _. unfold about2. rewrite R3, S2. split; [reflexivity|].
    unfold recipient. rewrite upto_firstn, oct_oct by lia. reflexivity.
Qed.
Lemma answer_given pr ver k r o b : decode_submit pr ver k = Ok r -> pr_p pr <> P_SGIP -> zlen (o_id o) = 10 -> encode_reply (submit_reply r 0 o) = Ok b ->
  given (pr_p pr) b = id_of (submit_reply r 0 o).
Proof.
  unfold decode_submit. intros D NS I1 E. destruct (pr_p pr) eqn:P; [|congruence|]; apply bind_ok in D as (s & D & X); injection X as <-; cbn [submit_reply encode_reply id_of] in *.
  - unfold Submit_ToResponse in *. cbn [rs_msgId]. match goal with _ : cresp_Encode (CResp (CHead _ ?cmd ?q) ?m ?c ?v) = _ |- _ => destruct (cresp_run cmd v q m c) as (b' & E' & L & W) end.
    rewrite E' in E. assert (b' = b) by congruence. subst b'. unfold given, oct. apply split20 in W as [_ W]; [|rewrite !app_length, !length_be; reflexivity|apply length_be].
    apply slice_oct in W as [W _]. symmetry. exact W.
  - unfold MSubmit_ToResponse in *. cbn [mr_msgId]. match goal with _ : mresp_Encode (MResp (CHead _ ?cmd ?q) ?m ?c ?v) = _ |- _ => destruct (mresp_run cmd v q m c I1) as (b' & E' & L & _ & W) end.
    rewrite E' in E. assert (b' = b) by congruence. subst b'. apply slice_oct in W as [W _]. symmetry. exact W.
Qed.
(** ** Which of the packets a server writes are reports, and which are answers that say 0 *)
Lemma oct4 b a w r : firstn 12 b = a ++ w ++ r -> length a = 4%nat -> length w = 4%nat -> oct b 4 4 = w.
Proof.
  intros H La Lw. unfold oct. assert (X : firstn 4 (skipn 4 b) = firstn 4 (skipn 4 (firstn 12 b))) by (rewrite skipn_firstn_comm, firstn_firstn; reflexivity).
  rewrite X, H, skipn_app, La, Nat.sub_diag, (skipn_all2 a) by lia. cbn [app skipn]. rewrite firstn_app, Lw, Nat.sub_diag, firstn_O, app_nil_r. apply firstn_all2. lia.
Qed.
Definition other (p : proto) (b : bytes) : Prop := reported p b = false /\ positive p b = false.
Lemma reported_only p b : reported p b = true -> positive p b = false.
Proof.
  unfold reported, positive. intros H. destruct p; rewrite ?andb_true_iff in H; [destruct H as [H _]| |destruct H as [H _]]; apply same_iff in H; rewrite H; reflexivity.
Qed.
Definition code_of (b : bytes) : bytes := oct b 4 4.
Lemma other_cmd p b w : code_of b = w ->
  match p with P_CMPP => w <> [0;0;0;5] /\ w <> [128;0;0;4] | P_SGIP => w <> [0;0;0;5] /\ w <> [128;0;0;3] | P_SMGP => w <> [0;0;0;3] /\ w <> [128;0;0;2] end -> other p b.
Proof.
  intros <- H. unfold other, reported, positive, code_of in *.
  assert (X : forall m, oct b 4 4 <> m -> same (oct b 4 4) m = false) by (intros m N; unfold same; destruct (list_eq_dec _ _ _); congruence).
  destruct p; destruct H as [H1 H2]; rewrite (X _ H1), (X _ H2); auto.
Qed.
Lemma force_other p b : terminate_packet p b -> other p b.
Proof.
  intros H. destruct p; cbn [terminate_packet] in H; [destruct H as (q & ->)|destruct H as (x & y & z & ->)|destruct H as (q & ->)]; (eapply other_cmd; [reflexivity|]; cbn; split; discriminate).
Qed.
Lemma heart_other p b : heartbeat_packet p b -> other p b.
Proof.
  intros H. destruct p; cbn [heartbeat_packet] in H; [destruct H as (q & ->)|destruct H|destruct H as (q & ->)]; (eapply other_cmd; [reflexivity|]; cbn; split; discriminate).
Qed.
Lemma login_other p k code b : login_reply p k code b -> other p b.
Proof.
  intros H. apply (other_cmd p b [128; 0; 0; 1]); [|destruct p; split; discriminate].
  destruct p; destruct H as [H _]; (eapply oct4; [exact H|apply length_be|reflexivity]).
Qed.
Lemma wire_cmd cmd seq body : code_of (wire_of cmd seq body) = be 4 cmd.
Proof. unfold code_of, wire_of. rewrite (oct_skip _ _ 4 4 4 (length_be _ _)) by lia. apply oct_here. apply length_be. Qed.
Lemma asked_other p k b : PropPong.asked p k = Some b -> other p b.
Proof.
  assert (W : forall cmd seq body, Some (wire_of cmd seq body) = Some b -> code_of b = be 4 cmd) by (intros cmd seq body H; assert (X : wire_of cmd seq body = b) by congruence; rewrite <- X; apply wire_cmd).
  unfold PropPong.asked. destruct p; repeat (destruct (_ =? _)); intros H; try discriminate; (eapply other_cmd; [exact (W _ _ _ H)|]; vm_compute; split; discriminate).
Qed.
Lemma be_zero v : 0 <= v < 256 -> be 4 v = [0; 0; 0; 0] -> v = 0.
Proof.
  intros H E. apply (f_equal unbe) in E. rewrite unbe_be_small in E by (change (256 ^ Z.of_nat 4) with (2 ^ 32); lia). exact E.
Qed.
Lemma submit_says p k code b : submit_answer p k code b -> 0 <= code < 256 -> reported p b = false /\ positive p b = (code =? 0).
Proof.
  intros H C. unfold reported, positive. destruct p; cbn [submit_answer] in H.
  - destruct H as [H1 H2]. rewrite (oct4 _ _ _ _ H1 (length_be _ _) eq_refl). split; [reflexivity|].
    change (same [128; 0; 0; 4] [128; 0; 0; 4]) with true. cbn [andb]. destruct H2 as [[_ ->]|[_ ->]].
    + destruct (code =? 0) eqn:Z0; [replace code with 0 by lia; reflexivity|]. apply not_true_is_false. intros F.
      assert (Y : be 4 code = repeat 0 4). { assert (Q : forall l : bytes, forallb (Z.eqb 0) l = true -> l = repeat 0 (length l)) by (induction l as [|x l IH]; [reflexivity|]; cbn [forallb length repeat]; intros G; apply andb_true_iff in G as [G1 G2]; rewrite <- IH by exact G2; f_equal; lia). rewrite (Q _ F), length_be. reflexivity. }
      apply be_zero in Y; lia.
    + cbn [forallb]. rewrite andb_true_r. apply Z.eqb_sym.
  - destruct H as (H1 & _ & _ & H2). rewrite (oct4 _ _ _ _ H1 (length_be _ _) eq_refl). rewrite H2. split; reflexivity.
  - destruct H as (H1 & _ & H2). rewrite (oct4 _ _ _ _ H1 (length_be _ _) eq_refl). split; [reflexivity|].
    change (same [128; 0; 0; 2] [128; 0; 0; 2]) with true. cbn [andb]. unfold oct. rewrite H2. rewrite firstn_all2 by (rewrite length_be; lia).
    destruct (code =? 0) eqn:Z0; [replace code with 0 by lia; reflexivity|]. unfold same. destruct (list_eq_dec _ _ _) as [Y|]; [|reflexivity]. apply be_zero in Y; lia.
Qed.

(** ** What stands in the log and in the write queue *)
Section Fate.
Variable pr : params.
Notation p := (pr_p pr).
(** Which submits and message ids are counted. *)
Variable f : packet -> bytes -> bool.
Definition wrote (o : obs) : list (okind * bytes) := match o with OOut kd b => [(kd, b)] | _ => [] end.
Definition trace (lg : list obs) (qu : list item) : list (okind * bytes) := flat_map wrote lg ++ map fst qu.
Definition rep (x : okind * bytes) : bool := match fst x with KReport k => f k (tells p (snd x)) | _ => false end.
Definition yes (x : okind * bytes) : bool := match fst x with KSubmit k false code => (code =? 0) && f k (given p (snd x)) | _ => false end.
Definition due (t : task) : bool := match t with (JSubmit k _, PReport a) => match p with P_SGIP => false | _ => f k (id_of a) end | _ => false end.
Definition told_one (x : okind * bytes) : Prop :=
  match fst x with
  | KReport k => reported p (snd x) = true /\ concerns p k (snd x) /\ p <> P_SGIP
  | KForce | KHeart | KDly => other p (snd x)
  | _ => True
  end.
Definition came_in (lg : list obs) (kd : okind) : Prop := match kd with KSubmit k false _ => In (OGot k) lg /\ is_submit p k | _ => True end.
Definition job_told (lg : list obs) (t : task) : Prop :=
  match fst t with
  | JSubmit k r => (exists ver, decode_submit pr ver k = Ok r) /\ bytes_ok (pk_body k) /\ is_submit p k /\ In (OGot k) lg /\
                   forall a, snd t = PReport a -> exists o, a = submit_reply r 0 o /\ zlen (o_id o) = 10
  | JDly b => other p b
  | _ => True
  end.
Record kept' (bu : bytes) (ts : list task) (qu : list item) (lg : list obs) (conn : bool) : Prop := Kept {
  kp_buf : bytes_ok bu;
  kp_job : forall t, In t ts -> job_told lg t;
  kp_one : forall x, In x (trace lg qu) -> told_one x;
  kp_que : forall it, In it qu -> came_in lg (fst (fst it));
  kp_log : forall pre kd b post, lg = pre ++ OOut kd b :: post -> came_in pre kd;
  kp_pre : forall l1 l2, trace lg qu = l1 ++ l2 -> count rep l1 <= count yes l1;
  kp_all : conn = true -> count rep (trace lg qu) + count due ts <= count yes (trace lg qu) }.
Definition kept (c : sconn) : Prop := kept' (sc_buf c) (sc_tasks c) (sc_queue c) (sc_log c) (se_conn (sc_sess c)).

Lemma snoc_split {A} (l : list A) x l1 y l2 : l ++ [x] = l1 ++ y :: l2 -> (exists l3, l = l1 ++ y :: l3) \/ (l1 = l /\ y = x).
Proof.
  intros H. destruct (exists_last (l := y :: l2)) as (m & z & E); [discriminate|]. rewrite E, app_assoc in H. apply app_inj_tail in H as [H1 H2]. subst z.
  destruct m as [|w m]; cbn [app] in E; injection E as -> E.
  - right. rewrite app_nil_r in H1. auto.
  - left. exists m. exact H1.
Qed.
Lemma came_more lg x kd : came_in lg kd -> came_in (lg ++ x) kd.
Proof. destruct kd; auto. cbn. destruct refused; auto. intros [A B]. split; [apply in_or_app; auto|exact B]. Qed.
Lemma told_more lg x t : job_told lg t -> job_told (lg ++ x) t.
Proof. destruct t as [j q]. unfold job_told. cbn [fst snd]. destruct j; auto. intros (A & B & C & D & E). repeat (split; [assumption|]). split; [apply in_or_app; auto|exact E]. Qed.
Lemma kept_note c o : kept c -> wrote o = [] -> kept (note c o).
Proof.
  intros [A B C D E F G] W. assert (TR : trace (sc_log c ++ [o]) (sc_queue c) = trace (sc_log c) (sc_queue c)) by (unfold trace; rewrite flat_map_app; cbn [flat_map]; rewrite W; cbn [app]; rewrite app_nil_r; reflexivity).
  split; cbn [note sc_buf sc_tasks sc_queue sc_log sc_sess]; rewrite ?TR; auto.
  - intros t Ht. apply told_more. auto.
  - intros it Hi. apply came_more. auto.
  - intros pre kd b post H. apply snoc_split in H as [(l3 & H)|[_ H]]; [eapply E; eauto|]. subst o. discriminate W.
Qed.
Lemma kept_tasks c ts : kept c -> (forall t, In t ts -> job_told (sc_log c) t) -> count due ts <= count due (sc_tasks c) -> kept (with_tasks c ts).
Proof. intros [A B C D E F G] H L. split; cbn [with_tasks sc_buf sc_tasks sc_queue sc_log sc_sess]; auto. intros X. specialize (G X). lia. Qed.
Lemma kept_spawn c j : kept c -> job_told (sc_log c) (j, PStart) -> kept (spawn c j).
Proof.
  intros H J. apply kept_tasks; [exact H| |].
  - intros t Ht. apply in_app_or in Ht as [Ht|[<-|[]]]; [|exact J]. apply H. exact Ht.
  - rewrite count_app, count_one. replace (due (j, PStart)) with false by (destruct j; reflexivity). lia.
Qed.
Lemma kept_buf c b : kept c -> bytes_ok b -> kept (with_buf c b).
Proof. intros [A B C D E F G] H. split; auto. Qed.
(** One packet more is queued. *)
Lemma kept_item c ts it : kept c -> (forall t, In t ts -> job_told (sc_log c) t) -> told_one (fst it) -> came_in (sc_log c) (fst (fst it)) -> se_conn (sc_sess c) = true ->
  (if rep (fst it) then 1 else 0) + count due ts <= (if yes (fst it) then 1 else 0) + count due (sc_tasks c) -> kept (put c [it] ts).
Proof.
  intros [A B C D E F G] H T1 K CN L. assert (TR : trace (sc_log c) (sc_queue c ++ [it]) = trace (sc_log c) (sc_queue c) ++ [fst it]) by (unfold trace; rewrite map_app, app_assoc; reflexivity).
  assert (GG : count rep (trace (sc_log c) (sc_queue c ++ [it])) + count due ts <= count yes (trace (sc_log c) (sc_queue c ++ [it]))) by (specialize (G CN); rewrite TR, !count_app, !count_one; lia).
  split; cbn [put sc_buf sc_tasks sc_queue sc_log sc_sess]; auto.
  - rewrite TR. intros x Hx. apply in_app_or in Hx as [Hx|[<-|[]]]; auto.
  - intros x Hx. apply in_app_or in Hx as [Hx|[<-|[]]]; auto.
  - intros l1 l2 X. destruct l2 as [|y l2].
    + rewrite app_nil_r in X. subst l1. pose proof (count_nonneg due ts). lia.
    + rewrite TR in X. apply snoc_split in X as [(l3 & X)|[-> _]]; [exact (F _ _ X)|]. apply (F _ []). rewrite app_nil_r. reflexivity.
Qed.
Lemma kept_close c : kept c -> kept (OnClose c).
Proof.
  intros H. unfold OnClose. destruct (negb (sc_open c)); [exact H|]. apply kept_note; [|reflexivity]. destruct H as [A B C D E F G].
  split; cbn [sc_buf sc_tasks sc_queue sc_log sc_sess se_conn]; auto.
  - intros x Hx. apply C. unfold trace in *. apply in_or_app. left. cbn in Hx. rewrite app_nil_r in Hx. exact Hx.
  - intros it [].
  - intros l1 l2 X. unfold trace in *. cbn in X. rewrite app_nil_r in X. apply (F l1 (l2 ++ map fst (sc_queue c))). rewrite app_assoc, <- X. reflexivity.
  - discriminate.
Qed.
Definition good (o : orc) : Prop := zlen (o_id o) = 10 /\ zlen (o_rid o) = 10 /\ zlen (o_t2 o) = 10 /\ zlen (o_t3 o) = 10 /\ 0 <= o_sec o /\
  forall b, o_dly o = Some b -> reported p b = false /\ positive p b = false.
Lemma kept_task o i c : good o -> kept c -> kept (on_task pr o i c).
Proof.
  intros (O1 & O2 & O3 & O4 & O5 & _) H. destruct (nth_error (sc_tasks c) i) as [[j q]|] eqn:N; [|unfold on_task; rewrite N; exact H].
  assert (HT : forall t, In t (sc_tasks c) -> job_told (sc_log c) t) by apply H.
  assert (J : job_told (sc_log c) (j, q)) by (apply HT; eapply nth_error_In; eauto).
  assert (JQ : forall q', (forall a, q' <> PReport a) -> job_told (sc_log c) (j, q')).
  { intros q' NQ. unfold job_told in *. cbn [fst snd] in *. destruct j; auto. destruct J as (A & B & C & D & _). repeat (split; [assumption|]). intros a X. exfalso. exact (NQ a X). }
  assert (JU : forall q', (forall a, q' <> PReport a) -> forall t, In t (upd (sc_tasks c) i (j, q')) -> job_told (sc_log c) t).
  { intros q' NQ t Ht. apply (in_upd _ _ _ _ _ N) in Ht as [->|Ht]; auto. }
  assert (JD : forall t, In t (del (sc_tasks c) i) -> job_told (sc_log c) t) by (intros t Ht; apply in_del in Ht; auto).
  assert (DN : forall q', (forall a, q' <> PReport a) -> due (j, q') = false) by (intros q' NQ; destruct j; try reflexivity; destruct q'; try reflexivity; exfalso; eapply NQ; reflexivity).
  assert (CU : forall q', (forall a, q' <> PReport a) -> count due (upd (sc_tasks c) i (j, q')) = count due (sc_tasks c) - (if due (j, q) then 1 else 0)).
  { intros q' NQ. rewrite (count_upd due _ _ _ (j, q') N), (DN q' NQ). lia. }
  assert (CD : count due (del (sc_tasks c) i) <= count due (sc_tasks c)) by (rewrite (count_del due _ _ _ N); destruct (due (j, q)); lia).
  assert (UU : forall q', (forall a, q' <> PReport a) -> kept (with_tasks c (upd (sc_tasks c) i (j, q')))).
  { intros q' NQ. apply kept_tasks; [exact H|exact (JU q' NQ)|]. rewrite CU by exact NQ. destruct (due (j, q)); lia. }
  assert (V : kept (with_tasks c (del (sc_tasks c) i))) by (apply kept_tasks; auto).
  assert (CH : forall c' l, kept c' -> kept (with_chans c' l)) by auto.
  (* packets other than answers to submits and reports *)
  assert (P : forall it ts, (forall t, In t ts -> job_told (sc_log c) t) -> count due ts <= count due (sc_tasks c) -> item_of pr o j it -> (forall k r, j <> JSubmit k r) -> se_conn (sc_sess c) = true -> kept (put c [it] ts)).
  { intros it ts A B I1 NJ CN. assert (X : told_one (fst it) /\ came_in (sc_log c) (fst (fst it)) /\ rep (fst it) = false).
    { destruct I1; cbn [fst told_one came_in]; unfold told_one, rep; cbn [fst snd]; try (split; [exact Logic.I|split; [exact Logic.I|reflexivity]]); try (exfalso; eapply NJ; reflexivity).
      - destruct (PropTick.force_bytes pr o) as (b' & E & F). split; [|split; [exact Logic.I|reflexivity]]. apply force_other. congruence.
      - split; [|split; [exact Logic.I|reflexivity]]. assert (NS : p <> P_SGIP) by (intros X; rewrite X in *; discriminate). destruct (PropTick.heart_bytes pr o NS) as (b' & E & F). apply heart_other. congruence.
      - split; [|split; [exact Logic.I|reflexivity]]. exact J. }
    destruct X as (X1 & X2 & X3). apply kept_item; auto. rewrite X3. destruct (yes (fst it)); lia. }
  assert (RP : (exists a, q = PReport a /\ is_win j = true) \/ (is_win j = true -> forall a, q <> PReport a)).
  { destruct (is_win j); [|right; discriminate]. destruct q as [| | |a| | |]; try (right; discriminate). left. eauto. }
  destruct RP as [(a & -> & W)|RP].
  { unfold on_task. rewrite N. rewrite (proj2 (plain_none pr o j c) W). assert (R : kept (with_tasks c (upd (sc_tasks c) i (j, PRelease)))) by (apply UU; discriminate).
    destruct (report pr o j a c) as [c1| |] eqn:E; [|exact R|exact R]. unfold report in E. destruct j; try (injection E as <-; exact R).
    apply bind_ok in E as (ob & E1 & E2). destruct ob as [b|]; [|injection E2 as <-; exact R]. apply AsyncWrite_ok in E2 as [CN ->].
    destruct J as ([ver D] & Hb & SB & G & A). destruct (A a eq_refl) as (o1 & -> & I1).
    destruct (report_told pr ver k r o1 o _ b D Hb I1 O2 O3 O4 O5 E1) as (NS & R1 & R2 & R3).
    refine (kept_item c (upd (sc_tasks c) i (JSubmit k r, PRelease)) (KReport k, b, CbReport) H (JU PRelease _) _ Logic.I CN _); [discriminate|split; [exact R1|split; [exact R3|exact NS]]|].
    rewrite CU by discriminate. unfold rep, yes, due. cbn [fst snd]. rewrite R2. destruct p; [|congruence|]; destruct (f k _); lia. }
  destruct (on_task_step pr o i c j q N) as [W F|Ej|it W I1 C1|g W Q|W Q S'|W Q|k r it code a Ej Eq I1 C1 Ec Ek Ea|s' its w W Eq Nj SS It Wi|its a k Eq W It|g W Q|W Q]; auto.
  - apply P; auto. intros k r ->. discriminate W.
  - unfold try_send. destruct (ch_closed _); [exact V|]. destruct (_ <? _); [|apply UU; discriminate]. apply CH, UU. discriminate.
  - apply UU. discriminate.
  - apply UU. discriminate.
  - subst j q. destruct it as [[kd b] cb0]. cbn [fst] in Ek. subst kd. destruct J as ([ver D] & Hb & SB & G & _).
    assert (EB : encode_reply (submit_reply r code o) = Ok b) by (inversion I1; subst; auto).
    assert (Y : 0 <= (if due (JSubmit k r, if code =? 0 then PReport a else PRelease) then 1 else 0) <= (if yes (KSubmit k false code, b) then 1 else 0)).
    { unfold due, yes. cbn [fst snd]. destruct (code =? 0) eqn:Z0; cbn [andb]; [|lia]. apply Z.eqb_eq in Z0. rewrite Z0 in *. destruct (pr_p pr) eqn:PP; try (destruct (f k _); lia);
        (rewrite Ea, <- (answer_given pr ver k r o b D) by (rewrite ?PP; auto; discriminate); rewrite PP; destruct (f k _); lia). }
    apply kept_item; auto; cbn [fst].
    + intros t Ht. apply (in_upd _ _ _ _ _ N) in Ht as [->|Ht]; [|auto]. cbn [fst snd]. split; [eauto|]. split; [exact Hb|]. split; [exact SB|]. split; [exact G|].
      cbn [snd]. intros a1 X. destruct (code =? 0) eqn:Z0; [|discriminate]. apply Z.eqb_eq in Z0. injection X as <-. exists o. rewrite Ea, Z0. auto.
    + exact Logic.I.
    + split; [exact G|exact SB].
    + rewrite (count_upd due _ _ _ _ N). change (rep (KSubmit k false code, b)) with false. change (due (JSubmit k r, PWork)) with false. lia.
  - assert (M : kept (put c its (upd (sc_tasks c) i (j, PRelease)))).
    { destruct It as [->|(it & -> & I1 & CN)].
      - assert (R : kept (with_tasks c (upd (sc_tasks c) i (j, PRelease)))) by (apply UU; discriminate). unfold kept, put in *. cbn [sc_buf sc_tasks sc_queue sc_log sc_sess with_tasks] in *. rewrite app_nil_r. exact R.
      - apply P; auto; [apply JU; discriminate|]. rewrite CU by discriminate. destruct (due (j, q)); lia. }
    unfold kept in *. cbn [sc_buf sc_tasks sc_queue sc_log sc_sess put] in *. replace (se_conn s') with (se_conn (sc_sess c)) by (symmetry; apply SS). exact M.
  - exfalso. exact (RP W a Eq).
  - unfold try_recv. destruct (_ <? _); [apply CH; exact V|]. destruct (ch_closed _); [exact V|apply UU; discriminate].
Qed.
Lemma kept_write o c c' : kept c -> on_write o c = Ok c' -> kept c'.
Proof.
  intros H E. unfold on_write in E. destruct (sc_open c); [|injection E as <-; exact H].
  destruct (sc_queue c) as [|[[kd b] cb0] r] eqn:Q; [injection E as <-; exact H|].
  assert (K : kept (note (with_queue c r) (OOut kd b))).
  { destruct H as [A B C D F G L]. rewrite Q in *. assert (TR : trace (sc_log c ++ [OOut kd b]) r = trace (sc_log c) ((kd, b, cb0) :: r)) by (unfold trace; rewrite flat_map_app; cbn [flat_map wrote app map fst]; rewrite <- app_assoc; reflexivity).
    split; cbn [note with_queue sc_buf sc_tasks sc_queue sc_log sc_sess]; rewrite ?TR; auto.
    - intros t Ht. apply told_more. auto.
    - intros it Hi. apply came_more. apply D. right. exact Hi.
    - intros pre kd' b' post X. apply snoc_split in X as [(l3 & X)|[-> X]]; [eapply F; eauto|]. injection X as -> _. apply (D (kd, b, cb0)). left. reflexivity. }
  set (c1 := note _ _) in *. clearbody c1.
  assert (S1 : forall s w ch, se_conn s = se_conn (sc_sess c1) -> kept (SConn (sc_buf c1) (sc_open c1) s ch (sc_tasks c1) (sc_queue c1) w (sc_log c1))).
  { intros s w ch X. unfold kept in *. cbn [sc_buf sc_tasks sc_queue sc_log sc_sess]. rewrite X. exact K. }
  destruct cb0; cbn [callback] in E.
  - destruct ac as [ac|]; destruct (code =? 0); try discriminate; try (injection E as <-; exact (S1 (set_stat (sc_sess c1) StatClosing) true (sc_chans c1) eq_refl)).
    apply bind_ok in E as (c2 & E2 & E). injection E as <-. unfold completeLogin in E2. destruct (_ <? 0) eqn:WN; [discriminate|]. injection E2 as <-.
    apply kept_note; [|reflexivity]. refine (S1 _ _ _ _). reflexivity.
  - injection E as <-. destruct (code =? 0); [|exact K]. exact (S1 _ (sc_wish c1) (sc_chans c1) eq_refl).
  - injection E as <-. exact (S1 _ (sc_wish c1) (sc_chans c1) eq_refl).
  - injection E as <-. exact (S1 _ (sc_wish c1) (sc_chans c1) eq_refl).
  - injection E as <-. exact (S1 _ true (sc_chans c1) eq_refl).
  - injection E as <-. exact (S1 _ (sc_wish c1) (sc_chans c1) eq_refl).
  - injection E as <-. exact (S1 _ (sc_wish c1) (sc_chans c1) eq_refl).
  - injection E as <-. exact (S1 _ true (sc_chans c1) eq_refl).
Qed.
Lemma kept_step c e c' : kept c -> (match fst e with ERecv s => bytes_ok s | _ => True end) -> good (snd e) -> step pr c e = Ok c' -> kept c'.
Proof.
  intros H HS Hg E. destruct e as [[seg|i| | |] o]; cbn [step fst snd] in *.
  - apply on_recv_step in E. assert (BO : bytes_ok (sc_buf c ++ seg)) by (apply Forall_app; split; [apply H|exact HS]).
    destruct E as [O1|O1 F|O1 F|k rest O1 F N|k rest h a c1 O1 F Hin Hc HA]; auto.
    + apply kept_buf; auto.
    + apply kept_close, kept_buf; auto.
    + apply kept_buf; auto. apply (dch_bytes _ _ _ _ _ BO F).
    + destruct (dch_bytes _ _ _ _ _ BO F) as [BB BR].
      assert (G : kept (with_buf c1 rest)).
      { apply kept_buf; [|exact BR]. inversion HA; subst;
          try (apply kept_spawn); try (apply kept_note; [|reflexivity]); try (apply kept_note; [|reflexivity]); auto; try exact Logic.I.
        - unfold job_told. cbn [fst snd]. split; [eauto|]. split; [exact BB|]. split; [unfold is_submit; rewrite <- Hc; destruct p; reflexivity|].
          split; [|discriminate]. cbn [note sc_log]. apply in_or_app. left. apply in_or_app. right. left. reflexivity.
        - match goal with D : decode_other _ _ _ = Ok ?j |- _ => destruct p, h; cbn [decode_other] in D; apply bind_ok in D as (x & _ & D); injection D as <-; exact Logic.I end. }
      destruct a; [exact G|apply kept_close; exact G].
  - injection E as <-. apply kept_task; auto.
  - eapply kept_write; eauto.
  - injection E as <-. unfold on_tick. destruct (negb _); [exact H|]. destruct (_ || _); [destruct (o_acc o); [apply kept_spawn|]; solve [exact H|exact Logic.I]|].
    destruct (se_stat (sc_sess c)); try exact H. assert (H1 : kept (if o_acc o then spawn c JHeart else c)) by (destruct (o_acc o); [apply kept_spawn|]; solve [exact H|exact Logic.I]).
    destruct (o_dly o) as [b|] eqn:DL; [|exact H1]. destruct (o_acc2 o); [|exact H1]. apply kept_spawn; [exact H1|]. exact (proj2 (proj2 (proj2 (proj2 (proj2 Hg)))) b DL).
  - injection E as <-. apply kept_close. exact H.
Qed.
Lemma kept_run es : forall c c', segs_ok es -> values_ok p es -> kept c -> run pr c es = Ok c' -> kept c'.
Proof.
  induction es as [|e es IH]; intros c c' S1 V H E; cbn [run] in E; [congruence|]. apply bind_ok in E as (c1 & E1 & E2).
  apply (IH c1); [exact (Forall_inv_tail S1)|exact (Forall_inv_tail V)| |exact E2]. apply (kept_step c e c1 H (Forall_inv S1)); [|exact E1]. exact (Forall_inv V).
Qed.
Lemma kept_opened now : kept (opened now).
Proof.
  split; cbn [opened sc_buf sc_tasks sc_queue sc_log trace flat_map map app].
  - constructor.
  - intros t [].
  - intros x [].
  - intros it [].
  - intros pre kd b post X. destruct pre; discriminate.
  - intros l1 l2 X. symmetry in X. apply app_eq_nil in X as [-> _]. cbn. lia.
  - intros _. cbn. lia.
Qed.
End Fate.

(** ** Theorems *)
(** A report about a message whose id [g] picks; an answer that takes a message and gives it such an id. *)
Definition report_on (p : proto) (g : bytes -> bool) (o : obs) : bool := match o with OOut _ b => reported p b && g (tells p b) | _ => false end.
Definition taken_as (p : proto) (g : bytes -> bool) (o : obs) : bool := match o with OOut _ b => positive p b && g (given p b) | _ => false end.
(** The same for one submit packet. *)
Definition report_for (k : packet) (o : obs) : bool := match o with OOut (KReport k') _ => same_pk k k' | _ => false end.
Definition taken_for (k : packet) (o : obs) : bool := match o with OOut (KSubmit k' false code) _ => same_pk k k' && (code =? 0) | _ => false end.

Lemma count_wrote (q : okind * bytes -> bool) lg : count q (flat_map wrote lg) = count (fun o => match o with OOut kd b => q (kd, b) | _ => false end) lg.
Proof.
  induction lg as [|o lg IH]; [reflexivity|]. cbn [flat_map]. rewrite count_app, count_cons, IH. destruct o; cbn [wrote]; rewrite ?count_nil, ?count_one; reflexivity.
Qed.
Lemma count_in_le {A} (f g : A -> bool) l : (forall x, In x l -> f x = true -> g x = true) -> count f l <= count g l.
Proof.
  induction l as [|x l IH]; intros H; [unfold count; cbn; lia|]. rewrite !count_cons. specialize (IH (fun y Hy => H y (or_intror Hy))). pose proof (H x (or_introl eq_refl)) as X.
  destruct (f x); [rewrite X by reflexivity; lia|]. destruct (g x); lia.
Qed.
Lemma values_ids p es : values_ok p es -> ids_ok es.
Proof. intros H. eapply Forall_impl; [|exact H]. intros e A. apply A. Qed.
(** Which packets in the log are reports and which are positive answers. *)
Lemma told_log pr now es c kd b : segs_ok es -> values_ok (pr_p pr) es -> run pr (opened now) es = Ok c -> In (OOut kd b) (sc_log c) ->
  reported (pr_p pr) b = (match kd with KReport _ => true | _ => false end) /\
  positive (pr_p pr) b = (match kd with KSubmit _ _ code => code =? 0 | _ => false end) /\
  match kd with KReport k => concerns (pr_p pr) k b /\ pr_p pr <> P_SGIP | KSubmit k x code => submit_answer (pr_p pr) k code b /\ (x = true -> code <> 0) | _ => True end.
Proof.
  intros S1 V R L. pose proof (kept_run pr (fun _ _ => true) es _ _ S1 V (kept_opened pr (fun _ _ => true) now) R) as K.
  assert (T : told_one pr (kd, b)).
  { apply (kp_one _ _ _ _ _ _ _ K). unfold trace. apply in_or_app. left. apply in_flat_map. exists (OOut kd b). split; [exact L|left; reflexivity]. }
  unfold told_one in T. cbn [fst snd] in T. destruct kd; cbn iota.
  - destruct (PropWhy.C101_why pr now es c k code b S1 R L) as [X _]. apply login_other in X as [X1 X2]. auto.
  - destruct (C51_answers pr now es c S1 (values_ids _ _ V) R) as (_ & X & _). destruct (X _ _ _ _ L) as [X1 X2].
    assert (C : 0 <= code < 256) by (unfold result_ok in X2; destruct refused, (pr_p pr); lia).
    destruct (submit_says _ _ _ _ X1 C) as [Y1 Y2]. split; [exact Y1|]. split; [exact Y2|]. split; [exact X1|]. intros ->. unfold result_ok in X2. destruct (pr_p pr); lia.
  - destruct T as (T1 & T2 & T3). split; [exact T1|]. split; [apply reported_only; exact T1|auto].
  - destruct (PropPong.C107_answers pr now es c S1 R) as [_ X]. destruct (X k (KActive k) b L (or_introl eq_refl)) as [Y _]. apply asked_other in Y as [Y1 Y2]. auto.
  - destruct (PropPong.C107_answers pr now es c S1 R) as [_ X]. destruct (X k (KTerm k) b L (or_intror eq_refl)) as [Y _]. apply asked_other in Y as [Y1 Y2]. auto.
  - destruct T; auto.
  - destruct T; auto.
  - destruct T; auto.
Qed.
(** At any moment, for any choice of message ids: no more reports have been written about messages with
    such an id than answers that took a message under such an id; and no more reports for one submit packet
    than times it was taken.  (A report is never ahead of the answer.) *)
Theorem C110_counted : forall pr now es c pre post, segs_ok es -> values_ok (pr_p pr) es -> run pr (opened now) es = Ok c -> sc_log c = pre ++ post ->
  (forall g, count (report_on (pr_p pr) g) pre <= count (taken_as (pr_p pr) g) pre) /\
  (forall k, count (report_for k) pre <= count (taken_for k) pre).
Proof.
  intros pr now es c pre post S1 V R L. assert (IN : forall o, In o pre -> In o (sc_log c)) by (intros o Ho; rewrite L; apply in_or_app; auto).
  assert (K : forall f, count (rep pr f) (flat_map wrote pre) <= count (yes pr f) (flat_map wrote pre)).
  { intros f. pose proof (kept_run pr f es _ _ S1 V (kept_opened pr f now) R) as K. apply (kp_pre _ _ _ _ _ _ _ K) with (l2 := flat_map wrote post ++ map fst (sc_queue c)).
    unfold trace. rewrite L, flat_map_app, app_assoc. reflexivity. }
  split.
  - intros g. specialize (K (fun _ id => g id)). rewrite !count_wrote in K. etransitivity; [|etransitivity; [exact K|]]; apply count_in_le; intros o Ho; destruct o; try discriminate; cbn.
    + destruct (told_log pr now es c _ _ S1 V R (IN _ Ho)) as (A & _ & _). rewrite A. destruct o; try discriminate. cbn. auto.
    + destruct (told_log pr now es c _ _ S1 V R (IN _ Ho)) as (_ & B & _). rewrite B. destruct o; try discriminate. cbn. destruct refused; [discriminate|]. auto.
  - intros k. specialize (K (fun k' _ => same_pk k k')). rewrite !count_wrote in K. etransitivity; [|etransitivity; [exact K|]]; apply count_in_le; intros o Ho; destruct o; try discriminate; destruct o; try discriminate; cbn; auto.
    destruct refused; [discriminate|]. rewrite andb_comm. auto.
Qed.
(** Each report belongs to a submit of this connection: the submit came in, was answered with status 0, and
    then the report was written; it carries the id of that answer, the number of the submit's first
    recipient, and goes to the number the submit came from. *)
Theorem C110_belongs_partial : forall pr now es c pre kd b post, segs_ok es -> values_ok (pr_p pr) es -> run pr (opened now) es = Ok c ->
  sc_log c = pre ++ OOut kd b :: post -> reported (pr_p pr) b = true ->
  exists k before kd' a between, pre = before ++ OOut kd' a :: between /\ In (OGot k) before /\ is_submit (pr_p pr) k /\
    submit_answer (pr_p pr) k 0 a /\ positive (pr_p pr) a = true /\ given (pr_p pr) a = tells (pr_p pr) b /\ concerns (pr_p pr) k b.
Proof.
  intros pr now es c pre kd b post S1 V R L RB.
  assert (LB : In (OOut kd b) (sc_log c)) by (rewrite L; apply in_or_app; right; left; reflexivity).
  destruct (told_log pr now es c kd b S1 V R LB) as (A & _ & CC). rewrite A in RB. destruct kd; try discriminate. destruct CC as [CC _].
  set (f := fun k' id => same_pk k k' && same id (tells (pr_p pr) b)).
  pose proof (kept_run pr f es _ _ S1 V (kept_opened pr f now) R) as K.
  assert (C1 : count (rep pr f) (flat_map wrote (pre ++ [OOut (KReport k) b])) <= count (yes pr f) (flat_map wrote (pre ++ [OOut (KReport k) b]))).
  { apply (kp_pre _ _ _ _ _ _ _ K) with (l2 := flat_map wrote post ++ map fst (sc_queue c)). unfold trace. rewrite L, app_assoc. f_equal. rewrite <- flat_map_app, <- app_assoc. reflexivity. }
  rewrite !flat_map_app in C1. cbn [flat_map wrote app] in C1. rewrite !count_app, !count_one in C1. unfold rep at 2, yes at 2 in C1. cbn [fst snd] in C1. unfold f at 2 in C1.
  rewrite (proj2 (same_pk_iff k k) eq_refl), (proj2 (same_iff _ _) eq_refl) in C1. cbn [andb] in C1. pose proof (count_nonneg (rep pr f) (flat_map wrote pre)) as C0.
  destruct (PropPong.count_some (yes pr f) (flat_map wrote pre)) as ([kd' a] & Ha & Ya); [lia|].
  unfold yes in Ya. cbn [fst snd] in Ya. destruct kd' as [|k' [|] code| | | | | |]; try discriminate. apply andb_true_iff in Ya as [Ya1 Ya2]. apply Z.eqb_eq in Ya1. subst code.
  unfold f in Ya2. apply andb_true_iff in Ya2 as [Ya2 Ya3]. apply same_pk_iff in Ya2. subst k'. apply same_iff in Ya3.
  apply in_flat_map in Ha as (o & Ho & Hw). destruct o; cbn [wrote In] in Hw; try contradiction. destruct Hw as [Hw|[]]. injection Hw as -> ->.
  apply in_split in Ho as (before & between & Ep). exists k, before, (KSubmit k false 0), a, between. split; [exact Ep|].
  assert (LA : In (OOut (KSubmit k false 0) a) (sc_log c)) by (rewrite L, Ep; apply in_or_app; left; apply in_or_app; right; left; reflexivity).
  destruct (told_log pr now es c _ _ S1 V R LA) as (_ & P1 & P2 & _).
  destruct (kp_log _ _ _ _ _ _ _ K before (KSubmit k false 0) a (between ++ OOut (KReport k) b :: post)) as [G1 G2]; [rewrite L, Ep, <- app_assoc; reflexivity|].
  repeat (split; [assumption|]). assumption.
Qed.
(** SGIP has a report packet of its own (command 5); no server ever sends one, nor any other sign of the
    fate of a message, whatever the submits ask for. *)
Theorem C110_refuted_sgip : forall pr now es c kd b, pr_p pr = P_SGIP -> segs_ok es -> values_ok P_SGIP es -> run pr (opened now) es = Ok c ->
  In (OOut kd b) (sc_log c) -> oct b 4 4 <> [0; 0; 0; 5].
Proof.
  intros pr now es c kd b P S1 V R L X. rewrite <- P in V. destruct (told_log pr now es c kd b S1 V R L) as (A & _ & CC). rewrite P in *. cbn [reported] in A. rewrite X in A. cbn in A.
  destruct kd; try discriminate. destruct CC as [_ CC]. congruence.
Qed.

(** A report is sent whether or not the submit asks for one, and only one however many recipients it has:
    on an open, logged-in connection with nothing queued and a free place in its window, every well-formed
    submit that is let through and taken is followed by its answer and one report, and nothing else. *)
Lemma report_made pr ver k r o o' cid : decode_submit pr ver k = Ok r -> bytes_ok (pk_body k) -> pr_p pr <> P_SGIP -> zlen (o_id o) = 10 ->
  zlen (o_rid o') = 10 -> zlen (o_t2 o') = 10 -> zlen (o_t3 o') = 10 -> 0 <= o_sec o' -> o_norep o' = false -> pr_find pr (o_gen o') cid <> None ->
  1 <= many (pr_p pr) (is_v3 ver) k -> exists b, report_bytes pr r (submit_reply r 0 o) o' cid = Ok (Some b).
Proof.
  unfold decode_submit. intros D Hb NS I1 I2 I3 I4 I5 NR FI M. destruct (pr_p pr) eqn:P; [|congruence|]; apply bind_ok in D as (s & D & X); injection X as <-; cbn [submit_reply report_bytes]; rewrite NR.
  - destruct (cmpp_sub _ _ _ _ k D eq_refl Hb) as (V & TT & _). cbn [Submit_ToResponse rs_msgId]. change (0 =? 0) with true. cbv iota.
    assert (MM : 0 <= u64 (o_nid o) < 2 ^ 64) by (apply Z.mod_pos_bound; lia).
    destruct (cmpp_octets s (u64 (o_nid o)) (o_seq o') (o_nid o') (o_nrep o') (o_t1 o') (o_t2 o') (o_g o') TT MM) as (b & E & _). exists b. rewrite E. reflexivity.
  - destruct (pr_find pr (o_gen o') cid) as [ac|]; [|congruence]. cbn [MSubmit_ToResponse mr_msgId].
    destruct (ms_destTermID s) as [|q l] eqn:DD.
    + exfalso. unfold MSubmit_Decode in D. inv_bind D. injection D as <-. cbn [ms_destTermID] in DD. unfold many in M.
      match goal with H : at_ (pk_body k) 104 = Ok ?n, G : get_terms _ 105 (Z.to_nat ?n) = Ok _ |- _ => apply at_nth in H; change (Z.to_nat 104) with 104%nat in H; rewrite <- H in M; destruct (Z.to_nat n) eqn:Zn; [lia|]; cbn [get_terms] in G;
        apply bind_ok in G as (? & _ & G); apply bind_ok in G as ([? ?] & _ & G); congruence end.
    + assert (Q : 0 <= u32 (o_seq o') < 2 ^ 32) by (apply Z.mod_pos_bound; lia).
      destruct (smgp_octets ac s (u32 (o_seq o')) (o_id o) (o_rid o') (o_t1 o') (o_sec o') (o_t2 o') (o_t3 o') q l DD Q I1 I2 I3 I4 I5) as (d & b & E1 & E2 & _).
      exists b. rewrite E1. cbn [bind]. rewrite E2. reflexivity.
Qed.
Lemma nth_last {A} (l : list A) x y : nth_error (upd (l ++ [x]) (length l) y) (length l) = Some y.
Proof.
  unfold upd. rewrite nth_error_app2 by (rewrite firstn_length; lia). replace (length l - _)%nat with 0%nat; [reflexivity|]. rewrite firstn_length, app_length. cbn [length]. lia.
Qed.
Lemma upd_last {A} (l : list A) x y : upd (l ++ [x]) (length l) y = l ++ [y].
Proof. unfold upd. rewrite firstn_app, Nat.sub_diag, firstn_O, app_nil_r, firstn_all, skipn_all2 by (rewrite app_length; cbn; lia). reflexivity. Qed.
Lemma nth_end {A} (l : list A) y : nth_error (l ++ [y]) (length l) = Some y.
Proof. rewrite nth_error_app2, Nat.sub_diag by lia. reflexivity. Qed.
Theorem C110_refuted_sent : forall pr now es c seg k rest r g oa ob oc od oe of, segs_ok es -> run pr (opened now) es = Ok c -> calm pr (opened now) es -> pr_p pr <> P_SGIP ->
  sc_open c = true -> se_stat (sc_sess c) = StatLogin -> sc_queue c = [] -> se_win (sc_sess c) = Some g -> ch_len (get_chan c g) < ch_cap (get_chan c g) ->
  bytes_ok seg -> DecodeAndCheckHeader (pr_p pr) (pr_drain pr) (sc_buf c ++ seg) = Ok (FPass k rest) -> is_submit (pr_p pr) k ->
  decode_submit pr (se_ver (sc_sess c)) k = Ok r -> 1 <= many (pr_p pr) (is_v3 (se_ver (sc_sess c))) k ->
  o_acc oa = true -> o_lim oa = true -> pr_delay_ok pr = true -> o_busy oc = false -> o_norep od = false -> values_ok (pr_p pr) [(EWrite, oc); (EWrite, od)] ->
  pr_find pr (o_gen oc) (se_cid (sc_sess c)) <> None -> pr_find pr (o_gen od) (se_cid (sc_sess c)) <> None ->
  let n := length (sc_tasks c) in
  exists c' ka a kb b, run pr c [(ERecv seg, oa); (ETask n, ob); (ETask n, oc); (ETask n, od); (EWrite, oe); (EWrite, of)] = Ok c' /\
    sc_log c' = sc_log c ++ [OGot k; OServe k false; OOut ka a; OOut kb b] /\ sc_queue c' = [] /\
    submit_answer (pr_p pr) k 0 a /\ reported (pr_p pr) b = true /\ tells (pr_p pr) b = given (pr_p pr) a /\ concerns (pr_p pr) k b.
Proof.
  intros pr now es c seg k rest r g oa ob oc od oe of S0 R C NS O ST QE GW FREE SO F HK D M AC LI DL NB NR V F1 F2 n.
  pose proof (win_run pr es _ _ (win_opened now) R O C) as (CO & W). rewrite GW in W. destruct W as (W1 & W2 & W3 & _).
  assert (FB : bytes_ok (sc_buf c)) by (apply (PropPong.right_run pr es _ _ S0 (PropPong.right_opened pr now) R)).
  assert (Hb : bytes_ok (pk_body k)) by (apply (dch_bytes _ _ _ _ _ (proj2 (Forall_app _ _ _) (conj FB SO)) F)).
  pose proof (Forall_inv V) as (V1 & _). pose proof (Forall_inv (Forall_inv_tail V)) as (_ & V2 & V3 & V4 & V5 & _). cbn [snd] in V1, V2, V3, V4, V5.
  set (c2 := spawn (note (note c (OGot k)) (OServe k false)) (JSubmit k r)).
  assert (A : act pr oa HSubmit k c = Ok (ANone, c2)).
  { unfold act. cbv zeta. change (sc_sess (note c (OGot k))) with (sc_sess c). unfold sessionCheck. rewrite ST. cbn [negb]. rewrite D, W3, AC, LI. reflexivity. }
  assert (HC : handler_cmd (pr_p pr) HSubmit = pk_cmd k) by (unfold is_submit in HK; rewrite HK; destruct (pr_p pr); reflexivity).
  assert (HI : In HSubmit (handlers (pr_p pr))) by (destruct (pr_p pr); cbn; auto).
  assert (CH : forall hs, NoDup (map (handler_cmd (pr_p pr)) hs) -> In HSubmit hs -> ExecuteChain (pr_p pr) (act pr oa) hs k c = Ok (ANone, c2)).
  { induction hs as [|h0 hs IH]; [intros _ []|]; intros ND [->|Hi].
    - cbn [ExecuteChain]. unfold handler. rewrite HC, Z.eqb_refl. cbn [negb]. rewrite A. reflexivity.
    - cbn [ExecuteChain]. unfold handler. cbn [map] in ND. inversion ND as [|? ? N1 N2]; subst.
      replace (handler_cmd (pr_p pr) h0 =? pk_cmd k) with false.
      2:{ symmetry. apply Z.eqb_neq. intros E. apply N1. rewrite E, <- HC. apply in_map. exact Hi. }
      cbn [negb bind]. apply IH; assumption. }
  assert (S1 : step pr c (ERecv seg, oa) = Ok (with_buf c2 rest)).
  { cbn [step]. unfold on_recv. rewrite O. cbn [negb]. unfold OnTraffic. rewrite F. cbn [bind]. rewrite CH; [reflexivity|apply handlers_nodup|exact HI]. }
  (* the goroutine takes a place in the window *)
  assert (N2 : nth_error (sc_tasks (with_buf c2 rest)) n = Some (JSubmit k r, PStart)) by apply nth_end.
  set (lg := (sc_log c ++ [OGot k]) ++ [OServe k false]).
  set (ch := upd (sc_chans c) g (plus (get_chan c g) 1)).
  assert (T3 : on_task pr ob n (with_buf c2 rest) = SConn rest (sc_open c) (sc_sess c) ch (sc_tasks c ++ [(JSubmit k r, PWork)]) [] (sc_wish c) lg).
  { unfold on_task. rewrite N2. cbn [plain_job]. change (se_win (sc_sess (with_buf c2 rest))) with (se_win (sc_sess c)). rewrite GW. unfold try_send. change (get_chan (with_buf c2 rest) g) with (get_chan c g).
    rewrite W2. replace (_ <? _) with true by lia. unfold set_chan, with_chans, with_tasks, c2, spawn, note, with_buf. cbn [sc_buf sc_open sc_sess sc_chans sc_tasks sc_queue sc_wish sc_log with_tasks].
    unfold n. rewrite upd_last, QE. reflexivity. }
  (* and answers *)
  destruct (reply_ok pr _ k r 0 oc D Hb V1) as (a & EA & SA); [lia|].
  assert (T4 : on_task pr oc n (SConn rest (sc_open c) (sc_sess c) ch (sc_tasks c ++ [(JSubmit k r, PWork)]) [] (sc_wish c) lg)
             = SConn rest (sc_open c) (sc_sess c) ch (sc_tasks c ++ [(JSubmit k r, PReport (submit_reply r 0 oc))]) [(KSubmit k false 0, a, CbSubmit 0)] (sc_wish c) lg).
  { unfold on_task. cbn [sc_tasks]. unfold n at 1. rewrite nth_end. cbn [plain_job work sc_sess]. destruct (pr_find pr (o_gen oc) (se_cid (sc_sess c))); [|congruence]. rewrite DL, NB. cbn [negb].
    unfold sendSubmitResponse. rewrite EA. cbn [bind]. unfold AsyncWrite. cbn [sc_sess]. rewrite CO. cbn [bind]. change (0 =? 0) with true. cbv iota. unfold with_tasks, with_queue. cbn [sc_buf sc_open sc_sess sc_chans sc_tasks sc_queue sc_wish sc_log app].
    unfold n. rewrite upd_last. reflexivity. }
  (* and reports *)
  destruct (report_made pr _ k r oc od (se_cid (sc_sess c)) D Hb NS V1 V2 V3 V4 V5 NR F2 M) as (b & EB).
  destruct (report_told pr _ k r oc od _ b D Hb V1 V2 V3 V4 V5 EB) as (_ & RB & TB & CB).
  assert (T5 : on_task pr od n (SConn rest (sc_open c) (sc_sess c) ch (sc_tasks c ++ [(JSubmit k r, PReport (submit_reply r 0 oc))]) [(KSubmit k false 0, a, CbSubmit 0)] (sc_wish c) lg)
             = SConn rest (sc_open c) (sc_sess c) ch (sc_tasks c ++ [(JSubmit k r, PRelease)]) [(KSubmit k false 0, a, CbSubmit 0); (KReport k, b, CbReport)] (sc_wish c) lg).
  { unfold on_task. cbn [sc_tasks]. unfold n at 1. rewrite nth_end. cbn [plain_job report sc_sess]. rewrite EB. cbn [bind]. unfold AsyncWrite. cbn [sc_sess]. rewrite CO. unfold with_tasks, with_queue. cbn [sc_buf sc_open sc_sess sc_chans sc_tasks sc_queue sc_wish sc_log app].
    unfold n. rewrite upd_last. reflexivity. }
  cbn [run]. rewrite S1. cbn [bind step]. rewrite T3. cbn [bind]. rewrite T4. cbn [bind]. rewrite T5. cbn [bind]. unfold on_write at 1. cbn [sc_open sc_queue]. rewrite O.
  cbn [callback]. change (0 =? 0) with true. cbv iota. cbn [bind]. unfold on_write, note, with_queue, with_sess. cbn [sc_open sc_queue sc_sess sc_buf sc_chans sc_tasks sc_wish sc_log callback bind].
  eexists. exists (KSubmit k false 0), a, (KReport k), b. split; [reflexivity|]. cbn [with_sess sc_log sc_queue]. split; [unfold lg; rewrite <- !app_assoc; reflexivity|]. split; [reflexivity|].
  split; [exact SA|]. split; [exact RB|]. split; [|exact CB]. rewrite TB. symmetry. exact (answer_given pr _ k r oc a D NS V1 EA).
Qed.

(** ** Cases *)
(** A submit from 95 to 138 and 139 with the flag that asks for a report set to [ask]. *)
Definition zs (n : nat) : bytes := repeat 0 n.
Definition fate_body (p : proto) (ask : Z) : bytes :=
  match p with
  | P_SMGP => [6; ask; 1] ++ zs 59 ++ [57; 53] ++ zs 19 ++ zs 21 ++ [2] ++ [49; 51; 56] ++ zs 18 ++ [49; 51; 57] ++ zs 18 ++ [5; 72; 101; 108; 108; 111] ++ zs 8
  | _ => zs 8 ++ [1; 1; ask; 5] ++ zs 10 ++ [2] ++ zs 33 ++ [0; 0; 0] ++ zs 48 ++ [57; 53] ++ zs 19 ++ [2] ++ [49; 51; 56] ++ zs 29 ++ [49; 51; 57] ++ zs 29 ++ [0; 5; 72; 101; 108; 108; 111] ++ zs 20
  end.
Definition fate_pk (p : proto) (ask : Z) : packet := Packet (match p with P_SMGP => 2 | _ => 4 end) 7 (fate_body p ask).
Definition fate_orc (norep busy : bool) (now : Z) : orc :=
  Orc true true true now busy norep 1 77 3 (1, 2, 3) [1;2;3;4;5;6;7;8;9;9] (repeat 0 10) (repeat 48 10) (repeat 48 10) (repeat 48 10) 0 0 (fun _ => 0) None 0.
Definition fate_es (p : proto) (ask : Z) (norep busy : bool) : list (event * orc) := PropWhy.wy_es p 0 (PropEnd.end_id p) [115; 51] 48 ++
  map (fun e => (e, fate_orc norep busy 6)) [ERecv (wire_of (pk_cmd (fate_pk p ask)) 7 (fate_body p ask)); ETask 0; ETask 0; ETask 0; ETask 0; EWrite; EWrite].
(** what is left to do, and of each packet written: is it an answer that takes a message, under which id; is it a report, about which id and number *)
Definition fate_of (p : proto) (ask : Z) (norep busy : bool) : option (nat * nat * list (bool * bytes * bool * bytes * bytes)) :=
  match run (PropEnd.end_pr p) (opened 0) (fate_es p ask norep busy) with
  | Ok c => Some (length (sc_tasks c), length (sc_queue c), map (fun x => let b := snd x in if reported p b then (positive p b, [], true, tells p b, about p b) else (positive p b, if positive p b then given p b else [], false, [], [])) (flat_map wrote (sc_log c)))
  | _ => None
  end.
Definition login_out : bool * bytes * bool * bytes * bytes := (false, [], false, [], []).
(** The submit that asks for nothing gets a report, the second recipient of the one that asks gets none;
    the submit that is refused gets none. *)
Example C110_case :
  fate_of P_CMPP 0 false false = Some (0%nat, 0%nat, [login_out; (true, [0;0;0;0;0;0;0;77], false, [], []); (false, [], true, [0;0;0;0;0;0;0;77], [49;51;56])]) /\
  fate_of P_CMPP 1 false false = fate_of P_CMPP 0 false false /\
  fate_of P_CMPP 1 false true = Some (0%nat, 0%nat, [login_out; login_out]) /\
  fate_of P_SMGP 0 false false = Some (0%nat, 0%nat, [login_out; (true, [1;2;3;4;5;6;7;8;9;9], false, [], []); (false, [], true, [1;2;3;4;5;6;7;8;9;9], [49;51;56])]) /\
  fate_of P_SMGP 1 false false = fate_of P_SMGP 0 false false.
Proof. vm_compute. repeat split. Qed.
Definition fate_report (p : proto) : bytes :=
  match run (PropEnd.end_pr p) (opened 0) (fate_es p 0 false false) with Ok c => hd [] (filter (reported p) (map snd (flat_map wrote (sc_log c)))) | _ => [] end.
(** C110, refuted: a submit with two recipients that asks for no report; everything it led to is done, and
    there is exactly one report, about the first of them. *)
Theorem C110_refuted : forall p, p <> P_SGIP -> exists es c k b, segs_ok es /\ values_ok p es /\ run (PropEnd.end_pr p) (opened 0) es = Ok c /\ sc_open c = true /\ sc_tasks c = [] /\ sc_queue c = [] /\
  In (OGot k) (sc_log c) /\ is_submit p k /\ ~ asks p k /\ many p true k = 2 /\
  filter (reported p) (map snd (flat_map wrote (sc_log c))) = [b] /\ concerns p k b /\ about p b = [49; 51; 56].
Proof.
  intros p NS. assert (X : match run (PropEnd.end_pr p) (opened 0) (fate_es p 0 false false) with
    | Ok c => (sc_open c = true /\ sc_tasks c = [] /\ sc_queue c = []) /\ existsb (PropWhy.came (fate_pk p 0)) (sc_log c) = true /\ filter (reported p) (map snd (flat_map wrote (sc_log c))) = [fate_report p]
    | _ => False end).
  { destruct p; [|destruct (NS eq_refl)|]; (vm_compute; repeat split). }
  destruct (run (PropEnd.end_pr p) (opened 0) (fate_es p 0 false false)) as [c| |] eqn:E; [|destruct X|destruct X]. destruct X as ((X1 & X2 & X3) & X4 & X5).
  assert (X6 : In (OGot (fate_pk p 0)) (sc_log c)).
  { apply existsb_exists in X4 as (o & Ho & Co). destruct o; try discriminate. cbn [PropWhy.came] in Co. apply same_pk_iff in Co. rewrite Co. exact Ho. }
  exists (fate_es p 0 false false), c, (fate_pk p 0), (fate_report p).
  split. { unfold segs_ok, fate_es, PropWhy.wy_es. cbn [map app]. repeat (apply Forall_cons; [first [exact Logic.I|apply PropSubmitEnd.bytes_by; destruct p; vm_compute; reflexivity]|]). constructor. }
  split. { unfold values_ok, fate_es, PropWhy.wy_es. cbn [map app]. repeat (apply Forall_cons; [cbn [snd]; repeat (split; [vm_compute; congruence|]); discriminate|]). constructor. }
  split; [exact E|]. repeat (split; [assumption|]). split; [destruct p; [reflexivity|destruct (NS eq_refl)|reflexivity]|]. split; [destruct p; [vm_compute; discriminate|destruct (NS eq_refl)|vm_compute; discriminate]|]. split; [destruct p; [reflexivity|destruct (NS eq_refl)|reflexivity]|].
  split; [exact X5|]. split; [|destruct p; [vm_compute; reflexivity|destruct (NS eq_refl)|vm_compute; reflexivity]]. split; [destruct p; [vm_compute; reflexivity|destruct (NS eq_refl)|vm_compute; reflexivity]|]. intros _. destruct p; [vm_compute; split; reflexivity|destruct (NS eq_refl)|vm_compute; split; reflexivity].
Qed.
(** The situation of [C110_refuted_sent] is met after a login. *)
Example C110_sent_ex : forall p, p <> P_SGIP ->
  match run (PropEnd.end_pr p) (opened 0) (PropWhy.wy_es p 0 (PropEnd.end_id p) [115; 51] 48) with
  | Ok c => (sc_open c = true /\ se_stat (sc_sess c) = StatLogin /\ sc_queue c = [] /\ se_win (sc_sess c) = Some 0%nat /\ ch_len (get_chan c 0) < ch_cap (get_chan c 0)) /\
      DecodeAndCheckHeader p true (sc_buf c ++ wire_of (pk_cmd (fate_pk p 0)) 7 (fate_body p 0)) = Ok (FPass (fate_pk p 0) []) /\
      (exists r, decode_submit (PropEnd.end_pr p) (se_ver (sc_sess c)) (fate_pk p 0) = Ok r) /\ many p (is_v3 (se_ver (sc_sess c))) (fate_pk p 0) = 2
  | _ => False
  end.
Proof. intros p NS. destruct p; [|destruct (NS eq_refl)|]; (vm_compute; split; [repeat split|]; split; [reflexivity|]; split; [eexists; reflexivity|reflexivity]). Qed.

Print Assumptions C110_counted.
Print Assumptions C110_belongs_partial.
Print Assumptions C110_refuted_sgip.
Print Assumptions C110_refuted_sent.
Print Assumptions C110_refuted.

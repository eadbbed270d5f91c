(** * PropTextEnd: property C94 (what a server works on is what the client was asked to send). *)
From Coq Require Import Sorting.Permutation.
From Verif Require Import Base UtilsModel OptionsModel SpecText SpecWire CmppModel SgipModel SmgpModel SpecCmpp SpecSgip SpecSmgp FrameModel SpecFrame SpecServer ServerModel ServerProofs PropFrame PropServer
  PropWindow PropAnswers PropLogins CmppProofs CmppBuildProofs SgipProofs SmgpProofs ClientModel SpecClient ClientProofs PropClient PropEnd SubmitEndProofs PropSubmitEnd SpecTextEnd TextEndProofs.
From Verif Require RecvModel.

(** ** The two programs on one connection *)
(** Session i of a client (protocol p, account ac) and a connection of a server are the two ends of one
    TCP connection: the client wrote its login packet first, then the packets in its log; the server
    read some prefix of these bytes, in any segmentation, and did anything in between. *)
Definition linked (log : list cobs) (i : nat) (p : proto) (ac : authconf) (login : bytes) (pr : params) (now : Z) (es : list (event * orc)) (s : sconn) : Prop :=
  pr_p pr = p /\ run pr (opened now) es = Ok s /\ segs_ok es
  /\ (exists md5 sq q ts tsn, real_md5 md5 /\ 0 <= tsn < 2 ^ 32 /\ RecvModel.login_packet md5 p ac sq q ts tsn = Ok login)
  /\ (exists tail, received es ++ tail = concat (login :: up i log)).
(** No packet of the head alone on the wire, except at the very end (what the server does with one
    depends on the network library). *)
Definition with_bodies (bs : list bytes) : Prop := forall b r l, bs = l ++ b :: r -> r <> [] -> 13 <= zlen b.
(** The submits waiting or in progress in a server connection. *)
Definition works_on (s : sconn) (k : packet) (r : request) : Prop := exists j q, In (j, q) (sc_tasks s) /\ is_submit j k r.
(** Responses written to submit k (whether or not refused by the rate limit). *)
Definition answers_to (k : packet) (log : list obs) : list bytes :=
  flat_map (fun o => match o with OOut (KSubmit k' _ _) b => if pdec k' k then [b] else [] | _ => [] end) log.

(** ** Lemmas *)
Lemma with_bodies_ok bs : with_bodies bs -> bodies bs.
Proof.
  induction bs as [|b r IH]; intros H; cbn [bodies]; [exact I|]. split.
  - destruct r as [|x r]; [left; reflexivity|]. right. apply (H b (x :: r) []); [reflexivity|discriminate].
  - apply IH. intros b' r' l E N. apply (H b' r' (b :: l)); [rewrite E; reflexivity|exact N].
Qed.
Lemma login_shape md5 p ac sq q ts tsn login : real_md5 md5 -> 0 <= tsn < 2 ^ 32 -> account_fits p ac -> RecvModel.login_packet md5 p ac sq q ts tsn = Ok login ->
  sized login /\ says login 1 /\ (p = P_CMPP -> nth 34 login 0 = ac_Version ac).
Proof.
  intros M TS AF E. pose proof (ac_wf_of _ _ AF) as W. assert (US : 0 <= u32 sq < 2 ^ 32) by (unfold u32; apply Z.mod_pos_bound; lia).
  assert (BV : is_byte (ac_Version ac)) by apply AF.
  destruct p; cbn [RecvModel.login_packet] in E.
  - assert (WF : connect_wf (NewConnect md5 ac (u32 sq) ts tsn)).
    { unfold connect_wf, NewConnect. cbn [cn_h h_len h_cmd h_seq cn_auth cn_version cn_timestamp]. repeat split; try lia; try apply M; try apply BV. }
    rewrite (Connect_Encode_ok _ WF) in E. assert (EL : login = render (connect_layout (NewConnect md5 ac (u32 sq) ts tsn))) by congruence. clear E. subst login.
    pose proof (proj1 (M (ac_ClientId ac ++ zeros 9 ++ ac_SharedSecret ac ++ ts))) as L16.
    unfold connect_layout. destruct (render_framed 39 1 (h_seq (cn_h (NewConnect md5 ac (u32 sq) ts tsn))) [T 6 (cn_sourceAddr (NewConnect md5 ac (u32 sq) ts tsn)); R (cn_auth (NewConnect md5 ac (u32 sq) ts tsn)); U 1 (cn_version (NewConnect md5 ac (u32 sq) ts tsn)); U 4 (cn_timestamp (NewConnect md5 ac (u32 sq) ts tsn))]) as [F S1].
    + rewrite zlen_render. unfold NewConnect. cbn [widths width cn_sourceAddr cn_auth cn_version cn_timestamp]. unfold zlen in L16 |- *. unfold bytes in *. lia.
    + lia.
    + split; [apply framed_sized; exact F|]. split; [exact S1|]. intros _.
      unfold render, head. cbn [app map concat render1 NewConnect cn_h h_seq cn_sourceAddr cn_auth cn_version cn_timestamp].
      set (a := md5 _) in *. set (t := fit _ _).
      assert (LT : length t = 6%nat) by (pose proof (zlen_fit 6 (ac_ClientId ac)) as X; unfold zlen in X; fold t in X; unfold bytes in *; lia).
      assert (LA : length a = 16%nat) by (unfold zlen in L16; unfold bytes in *; lia).
      rewrite app_nth2; rewrite length_be; [|lia]. rewrite app_nth2; rewrite length_be; [|lia]. rewrite app_nth2; rewrite length_be; [|lia].
      rewrite app_nth2; rewrite LT; [|lia]. rewrite app_nth2; rewrite LA; [|lia]. rewrite app_nth1 by (rewrite length_be; lia). cbn. unfold is_byte in BV. apply Z.mod_small. lia.
  - assert (BT : is_byte (bd_type (NewBind ac 1 q))) by (cbn; unfold is_byte; lia).
    rewrite (Bind_Encode_ok (NewBind ac 1 q) eq_refl BT) in E. assert (EL : login = render (head20 61 (sh_cmd (bd_h (NewBind ac 1 q))) (sh_seq (bd_h (NewBind ac 1 q))) ++ bind_body (NewBind ac 1 q))) by congruence. clear E. subst login.
    destruct q as [[qa qb] qc]. unfold head20. cbn [NewBind bd_h sh_cmd sh_seq].
    destruct (render_framed 61 1 qa ([U 4 qb; U 4 qc] ++ bind_body (NewBind ac 1 (qa, qb, qc)))) as [F S1]; [|lia|].
    + rewrite zlen_render. reflexivity.
    + split; [apply framed_sized; exact F|]. split; [exact S1|]. discriminate.
  - assert (WF : login_wf (NewLogin md5 ac (u32 sq) ts tsn)).
    { unfold login_wf, NewLogin. cbn [lg_h h_len h_cmd h_seq lg_auth lg_mode lg_version lg_timestamp]. unfold is_byte in *. repeat split; try lia; try apply M. }
    rewrite (Login_Encode_ok _ WF) in E. assert (EL : login = render (head 42 1 (h_seq (lg_h (NewLogin md5 ac (u32 sq) ts tsn))) ++ login_body (NewLogin md5 ac (u32 sq) ts tsn))) by congruence. clear E. subst login.
    pose proof (proj1 (M (ac_ClientId ac ++ zeros 7 ++ ac_SharedSecret ac ++ ts))) as L16.
    destruct (render_framed 42 1 (h_seq (lg_h (NewLogin md5 ac (u32 sq) ts tsn))) (login_body (NewLogin md5 ac (u32 sq) ts tsn))) as [F S1]; [|lia|].
    + rewrite zlen_render. unfold NewLogin, login_body. cbn [widths width lg_clientID lg_auth lg_mode lg_timestamp lg_version]. unfold zlen in L16 |- *. unfold bytes in *. lia.
    + split; [apply framed_sized; exact F|]. split; [exact S1|]. discriminate.
Qed.
Lemma up_good cpr gbd i p ac bg c b : oinv cpr gbd i p ac bg c -> In b (up i (ct_log c)) ->
  (exists t, In (OWrote t i b) (ct_log c) /\ exists msg ops phones phone, nth_error bg t = Some (msg, ops, phones) /\ In phone phones /\ good_packet p (cp_gbe cpr) gbd ac phone msg b) \/ is_reply b.
Proof.
  intros H IB. apply in_flat_map in IB as (o & IO & J). pose proof (oi_log _ _ _ _ _ _ _ H _ IO) as G.
  destruct o as [ |t j y| | | | |j y]; try destruct J; destruct (j =? i)%nat eqn:E; try destruct J as [<-|[]]; try destruct J; apply Nat.eqb_eq in E; subst j; cbn [log_good] in G.
  - left. exists t. split; [exact IO|apply G; reflexivity].
  - right. exact G.
Qed.
Lemma submit_cmd_range p : 2 <= submit_cmd p < 2147483648.
Proof. destruct p; cbn; lia. Qed.
Lemma link_core cpr sessions ces c i ss p ac login pr now es s : crun cpr (cstart sessions) ces = Ok c -> nth_error sessions i = Some ss -> cs_p ss = p -> cs_ac ss = Some ac ->
  account_fits p ac -> given_fits (ac_SmsDisplayNo ac) ces -> linked (ct_log c) i p ac login pr now es s -> pr_drain pr = false \/ with_bodies (login :: up i (ct_log c)) ->
  sub (map PropFrame.wire (gots (sc_log s))) (login :: up i (ct_log c)) /\ sub (serves (sc_log s)) (gots (sc_log s)) /\ Forall (legal p) (gots (sc_log s)) /\
  says login 1 /\
  (forall k, In (OGot k) (sc_log s) -> pk_cmd k = submit_cmd p -> exists t msg ops phones phone, nth_error (begun ces) t = Some (msg, ops, phones) /\ In phone phones /\
     In (OWrote t i (PropFrame.wire k)) (ct_log c) /\ good_packet p (cp_gbe cpr) (pr_gbd pr) ac phone msg (PropFrame.wire k)) /\
  (forall k0 a, In (OLogin k0 a) (sc_log s) -> p = P_CMPP -> is_v3 (ac_Version a) = is_v3 (ac_Version ac)) /\
  (forall b, In b (up i (ct_log c)) -> is_reply b \/ says b (submit_cmd p)).
Proof.
  intros CR NS PS AS AF GF (PP & R & SG & (md5 & sq & q & ts & tsn & M & TS & LP) & (tail & UP)) DR.
  destruct (login_shape md5 p ac sq q ts tsn login M TS AF LP) as (LS & L1 & LV).
  assert (OI : oinv cpr (pr_gbd pr) i p ac (begun ces) c).
  { apply (oinv_run cpr (pr_gbd pr) i p ac AF ces [] (cstart sessions) c GF); [|exact CR]. apply oinv_start. intros ss' N'. assert (ss' = ss) as -> by congruence. auto. }
  assert (FR : Forall sized (login :: up i (ct_log c))).
  { constructor; [exact LS|]. apply Forall_forall. intros b IB. destruct (up_good _ _ _ _ _ _ _ _ OI IB) as [(t & _ & msg & ops & phones & phone & _ & _ & F & _)|[F _]]; [apply framed_sized; exact F|exact F]. }
  destruct (stream_run pr es (opened now) s _ R FR) as (l & LG & S1 & S2 & S3); [destruct DR as [DR|DR]; [left; exact DR|right; apply with_bodies_ok; exact DR]|constructor|exact SG|intros _; exists tail; exact UP|].
  cbn [opened sc_log app] in LG. subst l. rewrite PP in S3.
  assert (INW : forall k, In (OGot k) (sc_log s) -> In (PropFrame.wire k) (login :: up i (ct_log c))).
  { intros k IK. apply (sub_in _ _ _ S1), in_map. apply in_flat_map. exists (OGot k). split; [exact IK|left; reflexivity]. }
  assert (UG : forall b, In b (up i (ct_log c)) -> is_reply b \/ says b (submit_cmd p)).
  { intros b IB. destruct (up_good _ _ _ _ _ _ _ _ OI IB) as [(t & _ & msg & ops & phones & phone & _ & _ & _ & S & _)|F]; auto. }
  pose proof (submit_cmd_range p) as SR.
  split; [exact S1|]. split; [exact S2|]. split; [exact S3|]. split; [exact L1|]. split; [|split; [|exact UG]].
  - intros k IK CK. pose proof (wire_says k) as WS. rewrite CK in WS. destruct (INW k IK) as [E|IU].
    + exfalso. rewrite <- E in WS. assert (X : 1 = submit_cmd p) by (apply (says_one login); [exact L1|exact WS|lia|lia]). lia.
    + destruct (up_good _ _ _ _ _ _ _ _ OI IU) as [(t & IW & msg & ops & phones & phone & A & B & G)|[_ (cmd & SC & RC)]].
      * exists t, msg, ops, phones, phone. auto.
      * exfalso. assert (X : cmd = submit_cmd p) by (apply (says_one (PropFrame.wire k)); [exact SC|exact WS|lia|lia]). lia.
  - intros k0 a IL ->. pose proof (auth_run pr es _ _ SG (auth_opened pr now) R) as (_ & GL & _).
    apply in_split in IL as (x & y & EL). destruct (GL _ _ _ EL) as [IG GN]. destruct GN as [v GN]. unfold genuine in GN. rewrite PP in GN. destruct GN as (C1 & _ & VV & _).
    assert (IG2 : In (OGot k0) (sc_log s)) by (rewrite EL; apply in_or_app; left; exact IG).
    pose proof (wire_says k0) as WS. rewrite C1 in WS.
    assert (EW : PropFrame.wire k0 = login).
    { destruct (INW k0 IG2) as [E|IU]; [symmetry; exact E|]. exfalso. destruct (UG _ IU) as [[_ (cmd & SC & RC)]|SC].
      - assert (X : cmd = 1) by (apply (says_one (PropFrame.wire k0)); [exact SC|exact WS|lia|lia]). lia.
      - assert (X : submit_cmd P_CMPP = 1) by (apply (says_one (PropFrame.wire k0)); [exact SC|exact WS|cbn; lia|lia]). discriminate X. }
    specialize (LV eq_refl). rewrite <- EW in LV. rewrite wire_parts in LV. rewrite app_nth2 in LV by (rewrite !app_length, !length_be; lia). rewrite !app_length, !length_be in LV. cbn [Nat.add Nat.sub] in LV.
    rewrite LV in VV. unfold is_v3, major_match. rewrite VV. reflexivity.
Qed.
Lemma answers_count k : forall log, zlen (answers_to k log) = count (is_answer k true) log + count (is_answer k false) log.
Proof.
  induction log as [|o log IH]; [reflexivity|]. rewrite !count_cons. change (answers_to k (o :: log)) with ((match o with OOut (KSubmit k' _ _) b => if pdec k' k then [b] else [] | _ => [] end) ++ answers_to k log).
  rewrite zlen_app, IH. enough (Q : zlen (match o with OOut (KSubmit k' _ _) b => if pdec k' k then [b] else [] | _ => [] end) = (if is_answer k true o then 1 else 0) + (if is_answer k false o then 1 else 0)) by lia.
  destruct o as [ | | |kd b| ]; try reflexivity. destruct kd as [ |k' x c| | | | | | ]; try reflexivity. cbn [is_answer]. destruct (pdec k' k) as [->|N].
  - assert (X : same_pk k k = true) by (apply same_pk_iff; reflexivity). rewrite X. destruct x; reflexivity.
  - destruct (same_pk k k') eqn:E; [apply same_pk_iff in E; congruence|]. destruct x; reflexivity.
Qed.

(** ** C94 *)
(** For all three protocols, whatever the schedules on both ends, as long as every configured or given
    text fits into its field: the packets the server handles are packets the client wrote, each at
    most once and in order; and every submit the server is working on (waiting, or being refused by the
    rate limit) is a packet written for one number of one send of the application: it is addressed to
    exactly this number, and if the text goes into one packet, the server holds exactly this text.
    (The full claim, the text for any text, is refuted below.) *)
Theorem C94_message_partial : forall cpr sessions ces c i ss p ac login pr now es s, crun cpr (cstart sessions) ces = Ok c -> nth_error sessions i = Some ss -> cs_p ss = p -> cs_ac ss = Some ac ->
  account_fits p ac -> given_fits (ac_SmsDisplayNo ac) ces -> linked (ct_log c) i p ac login pr now es s -> pr_drain pr = false \/ with_bodies (login :: up i (ct_log c)) ->
  sub (map PropFrame.wire (gots (sc_log s))) (login :: up i (ct_log c)) /\
  (forall k r, works_on s k r -> exists t msg ops phones phone, nth_error (begun ces) t = Some (msg, ops, phones) /\ In phone phones /\ In (OWrote t i (PropFrame.wire k)) (ct_log c)
     /\ addressed r phone /\ (short p (cp_gbe cpr) (pr_gbd pr) msg -> reads r msg)).
Proof.
  intros cpr sessions ces c i ss p ac login pr now es s CR NS PS AS AF GF LK DR.
  destruct (link_core _ _ _ _ _ _ _ _ _ _ _ _ _ CR NS PS AS AF GF LK DR) as (S1 & _ & _ & _ & OR & VE & _). destruct LK as (PP & R & _).
  split; [exact S1|]. intros k r (j & q & IT & IS). destruct (work_run pr es _ _ (work_opened pr now) R) as [WK _]. destruct (WK _ IT k r IS) as (IG & CK & k0 & a & IL & D).
  rewrite PP in CK. destruct (OR k IG CK) as (t & msg & ops & phones & phone & A & B & W & (_ & _ & G)). exists t, msg, ops, phones, phone.
  split; [exact A|]. split; [exact B|]. split; [exact W|]. exact (G pr k (ac_Version a) r PP eq_refl eq_refl (VE k0 a IL) D).
Qed.
(** And no submit is answered more often than it was written: a response on the wire answers a
    packet the client wrote, and there are at most as many responses to it as times it was written. *)
Theorem C94_answers : forall cpr sessions ces c i ss p ac login pr now es s, crun cpr (cstart sessions) ces = Ok c -> nth_error sessions i = Some ss -> cs_p ss = p -> cs_ac ss = Some ac ->
  account_fits p ac -> given_fits (ac_SmsDisplayNo ac) ces -> linked (ct_log c) i p ac login pr now es s -> pr_drain pr = false \/ with_bodies (login :: up i (ct_log c)) ->
  ids_ok es -> forall k, pk_cmd k = submit_cmd p -> zlen (answers_to k (sc_log s)) <= Z.of_nat (count_occ bdec (up i (ct_log c)) (PropFrame.wire k)).
Proof.
  intros cpr sessions ces c i ss p ac login pr now es s CR NS PS AS AF GF LK DR ID k CK.
  destruct (link_core _ _ _ _ _ _ _ _ _ _ _ _ _ CR NS PS AS AF GF LK DR) as (S1 & S2 & _ & L1 & _ & _ & _). destruct LK as (PP & R & SG & _).
  destruct (C51_answers pr now es s SG ID R) as (CNT & _ & _).
  assert (IS : PropAnswers.is_submit (pr_p pr) k) by (unfold PropAnswers.is_submit; rewrite PP, CK; destruct p; reflexivity).
  pose proof (CNT k true IS) as C2. pose proof (CNT k false IS) as C3. pose proof (served_count k (sc_log s)) as C4. pose proof (sub_count pdec _ _ k S2) as C5.
  pose proof (wire_map_count k (gots (sc_log s))) as C6. pose proof (sub_count bdec _ _ (PropFrame.wire k) S1) as C7. cbn [count_occ] in C7. rewrite answers_count.
  destruct (bdec login (PropFrame.wire k)) as [E|_]; [|lia]. exfalso. pose proof (wire_says k) as WS. rewrite <- E, CK in WS. pose proof (submit_cmd_range p) as SR.
  assert (X : 1 = submit_cmd p) by (apply (says_one login); [exact L1|exact WS|lia|lia]). lia.
Qed.
Print Assumptions C94_message_partial.
Print Assumptions C94_answers.

(** ** Example *)
(** The client logs in and sends a text of Latin and Chinese characters to 130 and 131; the server gets
    the login in two segments, then the two submits cut at the 9th byte, and one is being worked on. *)
Definition te_acc (p : proto) : authconf := end_acc (end_id p) [115;51].
Definition te_text : bytes := [72; 105; 228; 189; 160].
Definition te_send (msg : bytes) : list cevent :=
  [CBegin 77 msg [ONeedReport 1] [[49;51;48]; [49;51;49]]; CPick 0 (Some 0%nat) d_demo 5; CWrite 0 true 5; CRecord 0 6; CPick 0 (Some 0%nat) d_demo 6; CWrite 0 true 6; CRecord 0 7; CDone 0].
Definition te_sess (p : proto) : csess := CSess p CLogin true (Some (te_acc p)) 0 0.
Definition te_client (p : proto) (msg : bytes) : cstate := get (cstart []) (crun pr_demo (cstart [te_sess p]) (te_send msg)).
Definition te_login (p : proto) : bytes := get [] (RecvModel.login_packet end_md5 p (te_acc p) 7 (1, 2, 3) [49;49;49;54;48;48;48;48;48;48] 1116000000).
Definition te_sent (p : proto) (msg : bytes) : bytes := concat (up 0 (ct_log (te_client p msg))).
Definition te_es (p : proto) (msg : bytes) : list (event * orc) := arrivals [(firstn 20 (te_login p), end_orc 0); (skipn 20 (te_login p), end_orc 0)] ++ [(ETask 0, end_orc 0); (EWrite, end_orc 0)] ++
  arrivals [(firstn 9 (te_sent p msg), two_busy); (skipn 9 (te_sent p msg), two_busy)].
Definition te_conn (p : proto) (msg : bytes) : sconn := get (opened 0) (run (end_pr p) (opened 0) (te_es p msg)).
Definition te_req (s : sconn) : option request := match sc_tasks s with (JSubmit _ r, _) :: _ => Some r | _ => None end.
Definition content_of (r : request) : bytes := match r with QCmpp s => sb_msgContent s | QSgip s => ss_Content s | QSmgp s => ms_content s end.
Lemma fits_by w s : (length s <=? w)%nat && forallb (fun x => negb (x =? 0)) s = true -> fits w s.
Proof. intros H. apply andb_true_iff in H as [H1 H2]. apply Nat.leb_le in H1. split; [|exact H1]. intros X. rewrite forallb_forall in H2. apply H2 in X. discriminate X. Qed.
Lemma with_bodies_by bs : forallb (fun b => 13 <=? zlen b) bs = true -> with_bodies bs.
Proof. intros H b r l -> _. rewrite forallb_forall in H. apply Z.leb_le, H. apply in_or_app. right. left. reflexivity. Qed.
Lemma te_fits p : account_fits p (te_acc p).
Proof. unfold account_fits, is_byte. destruct p; cbn [te_acc end_acc]; repeat (match goal with |- _ /\ _ => split end); try lia; try (apply fits_by; vm_compute; reflexivity); vm_compute; congruence. Qed.
Lemma te_given p msg : given_fits (ac_SmsDisplayNo (te_acc p)) (te_send msg).
Proof.
  unfold given_fits, te_send. repeat (apply Forall_cons; [try exact I; try (split; apply fits_by; vm_compute; reflexivity)|]); [|apply Forall_nil].
  split; [apply Forall_cons; [cbn; unfold is_byte; lia|apply Forall_nil]|]. repeat (apply Forall_cons; [apply fits_by; vm_compute; reflexivity|]). apply Forall_nil.
Qed.
Lemma te_linked p msg : In msg [te_text; repeat 65 160] ->
  crun pr_demo (cstart [te_sess p]) (te_send msg) = Ok (te_client p msg) /\ linked (ct_log (te_client p msg)) 0 p (te_acc p) (te_login p) (end_pr p) 0 (te_es p msg) (te_conn p msg)
  /\ with_bodies (te_login p :: up 0 (ct_log (te_client p msg))) /\ ids_ok (te_es p msg) /\ exists k r q, sc_tasks (te_conn p msg) = [(JSubmit k r, q)] /\ te_req (te_conn p msg) = Some r.
Proof.
  intros IM. assert (X : msg = te_text \/ msg = repeat 65 160) by (destruct IM as [<-|[<-|[]]]; auto). clear IM.
  split; [destruct p, X as [-> | ->]; vm_compute; reflexivity|]. split; [|split; [|split]].
  - unfold linked. split; [destruct p; reflexivity|]. split; [destruct p, X as [-> | ->]; vm_compute; reflexivity|]. split.
    { unfold segs_ok, te_es, arrivals. cbn [map app]. destruct p, X as [-> | ->]; repeat (apply Forall_cons; [cbn [fst]; try exact I; apply bytes_by; vm_compute; reflexivity|]); apply Forall_nil. }
    split; [|exists []; destruct p, X as [-> | ->]; vm_compute; reflexivity].
    exists end_md5, 7, (1, 2, 3), [49;49;49;54;48;48;48;48;48;48], 1116000000. split; [apply end_md5_real|]. split; [lia|]. destruct p; vm_compute; reflexivity.
  - apply with_bodies_by. destruct p, X as [-> | ->]; vm_compute; reflexivity.
  - unfold ids_ok, te_es, arrivals. cbn [map app]. repeat (apply Forall_cons; [vm_compute; reflexivity|]). apply Forall_nil.
  - destruct p, X as [-> | ->]; vm_compute; eexists _, _, _; split; reflexivity.
Qed.
Lemma utf16_low c l : utf16be_char c l -> c < 256 -> exists lo, l = [0; lo].
Proof. intros H L. destruct H as [hi lo X1 X2 X3|x y X1 X2]; unfold is_byte in *; [assert (hi = 0) by lia; subst; eauto|lia]. Qed.
(** The assumptions of both theorems hold, the text is short, and the server is working on a submit. *)
Example C94_case : forall p, crun pr_demo (cstart [te_sess p]) (te_send te_text) = Ok (te_client p te_text) /\ account_fits p (te_acc p) /\ given_fits (ac_SmsDisplayNo (te_acc p)) (te_send te_text)
  /\ linked (ct_log (te_client p te_text)) 0 p (te_acc p) (te_login p) (end_pr p) 0 (te_es p te_text) (te_conn p te_text) /\ with_bodies (te_login p :: up 0 (ct_log (te_client p te_text)))
  /\ ids_ok (te_es p te_text) /\ short p (cp_gbe pr_demo) (pr_gbd (end_pr p)) te_text
  /\ exists k r, works_on (te_conn p te_text) k r /\ content_of r = match p with P_SMGP => te_text | _ => [0; 72; 0; 105; 79; 96] end.
Proof.
  intros p. destruct (te_linked p te_text (or_introl eq_refl)) as (A & B & C & D & k & r & q & ET & ER). split; [exact A|]. split; [apply te_fits|]. split; [apply te_given|]. split; [exact B|]. split; [exact C|].
  split; [exact D|]. split.
  - assert (TX : utf8_text [72; 105; 20320] te_text).
    { unfold te_text. apply (utf8_cons 72 _ [72]); [constructor; lia|]. apply (utf8_cons 105 _ [105]); [constructor; lia|]. apply (utf8_cons 20320 [] [228; 189; 160] []); [|constructor]. exact (utf8_3 4 61 32 ltac:(lia) ltac:(lia) ltac:(lia) ltac:(lia)). }
    assert (CM : exists cs, utf8_text cs te_text /\ ((forall c, In c cs -> c < 128) /\ zlen te_text < 160 /\ headless te_text \/ (exists c, In c cs /\ 128 <= c) /\ forall u, utf16be_text cs u -> zlen u < 140 /\ headless u)).
    { exists [72; 105; 20320]. split; [exact TX|]. right. split; [exists 20320; split; [right; right; left; reflexivity|lia]|]. intros u HU.
      inversion HU as [|? ? l1 m1 H1 T1]; subst. inversion T1 as [|? ? l2 m2 H2 T2]; subst. inversion T2 as [|? ? l3 m3 H3 T3]; subst. inversion T3; subst.
      assert (LC : forall c l, utf16be_char c l -> (length l <= 4)%nat) by (intros c0 l0 HC; inversion HC; cbn; lia).
      pose proof (LC _ _ H1). pose proof (LC _ _ H2). pose proof (LC _ _ H3). split; [unfold zlen; rewrite !app_length; cbn [length]; unfold bytes in *; lia|].
      destruct (utf16_low 72 l1 H1) as [lo ->]; [lia|]. split; [discriminate|]. cbn [app firstn length]. discriminate. }
    destruct p; [exact CM|exact CM|]. exists te_text. split; [reflexivity|]. split; [reflexivity|]. split; [vm_compute; reflexivity|]. split; [discriminate|vm_compute; discriminate].
  - exists k, r. split; [exists (JSubmit k r), q; rewrite ET; split; [left; reflexivity|left; reflexivity]|].
    assert (X : te_req (te_conn p te_text) = Some r) by exact ER. destruct p; vm_compute in X; injection X as <-; reflexivity.
Qed.

(** ** What is not so *)
(** The claim fails for texts of several parts: with CMPP and SGIP, under the same assumptions, a text of
    160 letters A reaches the server as a first part without a single A in it (all of it is taken for
    UTF-16). *)
Theorem C94_refuted_long : forall p, p <> P_SMGP -> exists cpr sessions ces c ss ac login pr now es s k r, crun cpr (cstart sessions) ces = Ok c /\ nth_error sessions 0 = Some ss /\ cs_p ss = p /\ cs_ac ss = Some ac
  /\ account_fits p ac /\ given_fits (ac_SmsDisplayNo ac) ces /\ linked (ct_log c) 0 p ac login pr now es s /\ with_bodies (login :: up 0 (ct_log c))
  /\ (forall e, In e (begun ces) -> fst (fst e) = repeat 65 160) /\ works_on s k r /\ content_of r <> [] /\ ~ In 65 (content_of r) /\ ~ reads r (repeat 65 160).
Proof.
  intros p NP. destruct (te_linked p (repeat 65 160) (or_intror (or_introl eq_refl))) as (A & B & C & D & k & r & q & ET & ER).
  exists pr_demo, [te_sess p], (te_send (repeat 65 160)), (te_client p (repeat 65 160)), (te_sess p), (te_acc p), (te_login p), (end_pr p), 0, (te_es p (repeat 65 160)), (te_conn p (repeat 65 160)), k, r.
  split; [exact A|]. split; [reflexivity|]. split; [reflexivity|]. split; [reflexivity|]. split; [apply te_fits|]. split; [apply te_given|]. split; [exact B|]. split; [exact C|].
  split; [intros e [<-|[]]; reflexivity|]. split; [exists (JSubmit k r), q; rewrite ET; split; [left; reflexivity|left; reflexivity]|].
  assert (Y : exists x l, content_of r = x :: l /\ forallb (fun z => negb (z =? 65)) (content_of r) = true /\ match r with QCmpp s => sb_msgFmt s | QSgip s => ss_Coding s | QSmgp _ => 1 end = 0 /\ match r with QSmgp _ => False | _ => True end).
  { clear - ER NP. destruct p; [|  |destruct (NP eq_refl)]; vm_compute in ER; injection ER as <-; (eexists _, _; split; [reflexivity|]; split; [vm_compute; reflexivity|]; split; [reflexivity|exact I]). }
  clear - Y. destruct Y as (x & l & E & F & G & H). rewrite forallb_forall in F.
  assert (N : ~ In 65 (content_of r)) by (intros X; apply F in X; discriminate X). split; [rewrite E; discriminate|]. split; [exact N|].
  destruct r as [s0|s0|s0]; cbn [reads content_of] in *; [| |destruct H]; intros [[_ X]|[X _]]; try congruence; apply N; rewrite X; left; reflexivity.
Qed.
Print Assumptions C94_refuted_long.

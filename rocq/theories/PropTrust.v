(** * PropTrust: who can log in with what, and what is done with the shared secret.
    C95 (an overheard login cannot be used again), C96 (the client accepts a gateway only if it knows
    the secret), C97 (the secret does not leave the client in clear). *)
From Verif Require Import Base SpecWire WireProofs SpecText SeqModel OptionsModel CmppModel CmppProofs CmppBuildProofs PropCmpp PropCmpp2 SgipModel SpecSgip SgipProofs PropSgip SmgpModel PropSmgp
  FrameModel SpecFrame PropFrame ClientModel RecvModel PropRecv ServerModel SpecServer ServerProofs PropLogins PropEnd.

(** ** Specification *)
(** The 16 octets with which an answer to a login is to prove knowledge of the secret
    (AuthenticatorISMG, AuthenticatorServer); SGIP has none. *)
Definition proof_of (p : proto) (v3 : bool) (out : bytes) : bytes :=
  firstn 16 (skipn (match p with P_CMPP => if v3 then 16 else 13 | _ => 16 end) out).
(** Accounts that differ in the secret only. *)
Definition same_but_secret (a b : authconf) : Prop :=
  ac_ISP a = ac_ISP b /\ ac_ClientId a = ac_ClientId b /\ ac_LoginName a = ac_LoginName b /\
  ac_Version a = ac_Version b /\ ac_NeedReport a = ac_NeedReport b /\ ac_SmsDisplayNo a = ac_SmsDisplayNo b /\ ac_ServiceId a = ac_ServiceId b /\
  ac_DefaultMsgLevel a = ac_DefaultMsgLevel b /\ ac_FeeUserType a = ac_FeeUserType b /\ ac_FeeTerminalType a = ac_FeeTerminalType b /\ ac_FeeTerminalId a = ac_FeeTerminalId b /\
  ac_FeeType a = ac_FeeType b /\ ac_FeeCode a = ac_FeeCode b /\ ac_FixedFee a = ac_FixedFee b /\ ac_LinkId a = ac_LinkId b /\
  ac_MtValidDuration a = ac_MtValidDuration b /\ ac_MaxConns a = ac_MaxConns b /\ ac_MtWindowSize a = ac_MtWindowSize b /\ ac_Throughput a = ac_Throughput b.
(** Sessions that differ in the secret of their account only. *)
Definition same_session (s t : csess) : Prop :=
  cs_p s = cs_p t /\ cs_stat s = cs_stat t /\ cs_con s = cs_con t /\ cs_pcnt s = cs_pcnt t /\ cs_active s = cs_active t /\
  match cs_ac s, cs_ac t with Some a, Some b => same_but_secret a b | None, None => True | _, _ => False end.
(** A part of a text. *)
Definition contains (b x : bytes) : Prop := exists pre post, b = pre ++ x ++ post.

(** ** C95 *)
(** Whoever has seen the login packet of a client can log in with it, on any number of further
    connections and at any later time, as long as the account keeps its
    secret, names and version and has connections left. *)
Theorem C95_refuted : forall pr ac sq q ts tsn, real_md5 (pr_md5 pr) -> fitting (pr_p pr) ac -> seq_wf q -> 0 <= tsn < 2 ^ 32 -> ten_digits ts tsn -> (forall v, windows_ok (pr_find pr v)) ->
  forall now segs o2 o3 c, login_packet (pr_md5 pr) (pr_p pr) ac sq q ts tsn = Ok (concat (map fst segs)) -> Forall (fun x => o_acc (snd x) = true) segs ->
  login_run pr now segs o2 o3 = Ok c -> se_stat (sc_sess c) = StatLogin ->
  forall now' segs' o2' o3', concat (map fst segs') = concat (map fst segs) -> Forall (fun x => o_acc (snd x) = true) segs' ->
  (forall a, pr_find pr (o_gen o2) (ac_ClientId ac) = Some a -> exists a', pr_find pr (o_gen o2') (ac_ClientId ac) = Some a' /\
     ac_ClientId a' = ac_ClientId a /\ ac_LoginName a' = ac_LoginName a /\ ac_SharedSecret a' = ac_SharedSecret a /\ ac_Version a' = ac_Version a /\
     o_cnt o2' (ac_ClientId a') < ac_MaxConns a') ->
  exists c', login_run pr now' segs' o2' o3' = Ok c' /\ se_stat (sc_sess c') = StatLogin /\ sc_open c' = true /\ se_cid (sc_sess c') = se_cid (sc_sess c).
Proof.
  intros pr ac sq q ts tsn M F Q T D W now segs o2 o3 c E A RC ST now' segs' o2' o3' ES A' CNT.
  destruct (C69_agree_partial pr ac sq q ts tsn M F Q T D W) as (b & E' & H). assert (EB : b = concat (map fst segs)) by congruence.
  destruct (H now segs o2 o3 [] 0 (eq_sym EB) A) as (c1 & out & R1 & _ & [(EN & _ & _ & _ & (a & Fa & Ca & _) & _)|(_ & X & _)]); [|congruence].
  assert (c1 = c) by congruence. subst c1.
  destruct (H now' segs' o2' o3' [] 0) as (c2 & out2 & R2 & _ & [(_ & S2 & O2 & _ & (a2 & Fa2 & Ca2 & _) & _)|(NE & _)]); [congruence|exact A'| |].
  - destruct (CNT a Fa) as (a' & Fa' & C1 & _). exists c2. split; [exact R2|]. split; [exact S2|]. split; [exact O2|]. congruence.
  - exfalso. apply NE. destruct EN as (a1 & Fa1 & Ma & _). destruct (CNT a1 Fa1) as (a' & Fa' & C1 & C2 & C3 & C4 & C5). exists a'. split; [exact Fa'|].
    split; [|exact C5]. unfold matching in *. destruct (pr_p pr); rewrite ?C1, ?C2, ?C3, ?C4; exact Ma.
Qed.
(** What protects: the digest belongs to the time in the packet.  If the digest of one accepted CMPP
    or SMGP login is accepted with another time, md5 gives the same digest to the two texts made of the
    account and the one or the other time. *)
Theorem C95_digest_partial : forall md5 a,
  (forall c c', 0 <= cn_timestamp c < 2 ^ 32 -> 0 <= cn_timestamp c' < 2 ^ 32 -> fst (Connect_Check md5 c (Some a)) = 0 -> fst (Connect_Check md5 c' (Some a)) = 0 ->
     cn_auth c = cn_auth c' -> cn_timestamp c <> cn_timestamp c' -> exists t t', ten_digits t (cn_timestamp c) /\ ten_digits t' (cn_timestamp c') /\ t <> t' /\
       md5 (ac_ClientId a ++ repeat 0 9 ++ ac_SharedSecret a ++ t) = md5 (ac_ClientId a ++ repeat 0 9 ++ ac_SharedSecret a ++ t'))
  /\ (forall l l', 0 <= lg_timestamp l < 2 ^ 32 -> 0 <= lg_timestamp l' < 2 ^ 32 -> fst (Login_Check md5 l (Some a)) = 0 -> fst (Login_Check md5 l' (Some a)) = 0 ->
     lg_auth l = lg_auth l' -> lg_timestamp l <> lg_timestamp l' -> exists t t', ten_digits t (lg_timestamp l) /\ ten_digits t' (lg_timestamp l') /\ t <> t' /\
       md5 (ac_ClientId a ++ repeat 0 7 ++ ac_SharedSecret a ++ t) = md5 (ac_ClientId a ++ repeat 0 7 ++ ac_SharedSecret a ++ t')).
Proof.
  intros md5 a. assert (TD : forall t x y, ten_digits t x -> ten_digits t y -> x = y) by (intros t x y (_ & _ & X) (_ & _ & Y); congruence).
  split; intros c c' T T' K K' EA NT.
  - destruct (Connect_Check md5 c (Some a)) as [z d] eqn:E. destruct (Connect_Check md5 c' (Some a)) as [z' d'] eqn:E'. cbn [fst] in K, K'.
    destruct (proj1 (proj1 (C30_check md5 c (Some a) T z d E)) K) as (a1 & t1 & A1 & _ & D1 & M1). destruct (proj1 (proj1 (C30_check md5 c' (Some a) T' z' d' E')) K') as (a2 & t2 & A2 & _ & D2 & M2).
    assert (a1 = a) by congruence. assert (a2 = a) by congruence. subst a1 a2. exists t1, t2. split; [exact D1|]. split; [exact D2|].
    split; [|rewrite <- M1, <- M2; exact EA]. intros X. subst t2. apply NT, (TD t1); assumption.
  - destruct (Login_Check md5 c (Some a)) as [z d] eqn:E. destruct (Login_Check md5 c' (Some a)) as [z' d'] eqn:E'. cbn [fst] in K, K'.
    destruct (proj1 (proj1 (C42_check md5 c (Some a) T z d E)) K) as (a1 & t1 & A1 & _ & D1 & M1). destruct (proj1 (proj1 (C42_check md5 c' (Some a) T' z' d' E')) K') as (a2 & t2 & A2 & _ & D2 & M2).
    assert (a1 = a) by congruence. assert (a2 = a) by congruence. subst a1 a2. exists t1, t2. split; [exact D1|]. split; [exact D2|].
    split; [|rewrite <- M1, <- M2; exact EA]. intros X. subst t2. apply NT, (TD t1); assumption.
Qed.

(** ** C96 *)
Lemma answer_len_range p v : 0 <= answer_len p v < 34.
Proof. destruct p, v; cbn; lia. Qed.
(** The client takes any 16 octets for a proof: with every secret, every answer of the right length and
    command with status 0 gives a usable session. *)
Theorem C96_refuted : forall p ac seq au ver later now, length au = 16%nat -> p <> P_SGIP ->
  let v3 := is_v3 (ac_Version ac) in
  exists b s, b = render ([U 4 (answer_len p v3); U 4 2147483649; U 4 seq; U (match p with P_CMPP => if v3 then 4 else 1 | _ => 4 end) 0; R au; U 1 ver]) /\ proof_of p v3 b = au
    /\ NewSession p ac true (Data b :: later) now = Ok (MSess s later) /\ HealthCheck s = true.
Proof.
  intros p ac seq au ver later now LA NP v3. match goal with |- exists b s, b = ?x /\ _ => set (b := x); exists b end.
  assert (L : zlen b = answer_len p v3).
  { unfold b. rewrite zlen_render. cbn [widths width]. unfold zlen. rewrite LA. destruct p; [destruct v3; reflexivity|congruence|reflexivity]. }
  assert (SK : forall w, b = be 4 (answer_len p v3) ++ be 4 2147483649 ++ be 4 seq ++ w -> field 0 4 b = answer_len p v3 /\ field 4 4 b = 2147483649 /\ skipn 12 b = w).
  { intros w ->. unfold field. split; [|split].
    - cbn [skipn]. rewrite firstn_app, length_be, Nat.sub_diag, firstn_O, app_nil_r. rewrite firstn_all2 by (rewrite length_be; lia). apply unbe_be_small. change (256 ^ Z.of_nat 4) with 4294967296. pose proof (answer_len_range p v3). lia.
    - change (skipn 4 (be 4 (answer_len p v3) ++ be 4 2147483649 ++ be 4 seq ++ w)) with (be 4 2147483649 ++ be 4 seq ++ w). reflexivity.
    - reflexivity. }
  destruct p; [|congruence|].
  - destruct (SK (be (if v3 then 4 else 1) 0 ++ au ++ be 1 ver)) as (F0 & F4 & F12); [unfold b, render; cbn [map concat render1]; rewrite app_nil_r; reflexivity|].
    assert (ST : seen_status P_CMPP v3 b = 0).
    { cbn [seen_status]. unfold field. destruct v3; [change (skipn 15 b) with (skipn (12 + 3) b); rewrite <- (skipn_skipn b 3 12)|]; rewrite F12; reflexivity. }
    destruct (C65_success P_CMPP ac (Data b :: later) later b now) as (s & rest & E & HC & ->); [split; [exact L|split; [fold v3; rewrite F0, L; reflexivity|exact F4]]|exact ST|reflexivity|].
    exists s. split; [reflexivity|]. split; [|auto]. unfold proof_of. destruct v3.
    + change (firstn 16 (skipn (12 + 4) b) = au). rewrite <- (skipn_skipn b 4 12), F12. change (skipn 4 (be 4 0 ++ au ++ be 1 ver)) with (au ++ be 1 ver). rewrite firstn_app, LA, Nat.sub_diag, firstn_O, app_nil_r. apply firstn_all2. lia.
    + change (firstn 16 (skipn (12 + 1) b) = au). rewrite <- (skipn_skipn b 1 12), F12. change (skipn 1 (be 1 0 ++ au ++ be 1 ver)) with (au ++ be 1 ver). rewrite firstn_app, LA, Nat.sub_diag, firstn_O, app_nil_r. apply firstn_all2. lia.
  - destruct (SK (be 4 0 ++ au ++ be 1 ver)) as (F0 & F4 & F12); [unfold b, render; cbn [map concat render1]; rewrite app_nil_r; reflexivity|].
    assert (ST : seen_status P_SMGP v3 b = 0).
    { cbn [seen_status answer_status]. unfold field. rewrite F12. reflexivity. }
    destruct (C65_success P_SMGP ac (Data b :: later) later b now) as (s & rest & E & HC & ->); [split; [exact L|split; [fold v3; rewrite F0, L; reflexivity|exact F4]]|exact ST|reflexivity|].
    exists s. split; [reflexivity|]. split; [|auto]. unfold proof_of. change (firstn 16 (skipn (12 + 4) b) = au). rewrite <- (skipn_skipn b 4 12), F12. change (skipn 4 (be 4 0 ++ au ++ be 1 ver)) with (au ++ be 1 ver). rewrite firstn_app, LA, Nat.sub_diag, firstn_O, app_nil_r. apply firstn_all2. lia.
Qed.

(** What the server sends in the place of the proof, to a CMPP or SMGP client it lets in: a digest of
    the status 0, the client id and the secret. *)
Lemma login_out pr ac sq q ts tsn : real_md5 (pr_md5 pr) -> fitting (pr_p pr) ac -> seq_wf q -> 0 <= tsn < 2 ^ 32 -> ten_digits ts tsn -> (forall v, windows_ok (pr_find pr v)) ->
  forall now segs o2 o3, login_packet (pr_md5 pr) (pr_p pr) ac sq q ts tsn = Ok (concat (map fst segs)) -> Forall (fun x => o_acc (snd x) = true) segs ->
  entitled (pr_p pr) (pr_md5 pr) (pr_find pr (o_gen o2)) ac ts (o_cnt o2) ->
  exists k l c out a, legal (pr_p pr) k /\ decode_login (pr_p pr) k = Ok l /\ login_key l = ac_ClientId ac /\ speaks l (ac_Version ac) /\ pr_find pr (o_gen o2) (ac_ClientId ac) = Some a /\
    fst (login_check (pr_md5 pr) l (Some a)) = 0 /\ login_run pr now segs o2 o3 = Ok c /\ written (sc_log c) = [out] /\ ServerModel.login_answer (pr_md5 pr) (snd (login_check (pr_md5 pr) l (Some a))) 0 = Ok out.
Proof.
  intros M F Q T D W now segs o2 o3 EP A EN. destruct (packet_arrives (pr_p pr) (pr_md5 pr) ac sq q ts tsn M F Q T D) as (k & l & E & L & K & NB & Dl & Key & SP & CH).
  destruct EN as (a & Ea & Ma & Ca). assert (Z0 : fst (login_check (pr_md5 pr) l (pr_find pr (o_gen o2) (ac_ClientId ac))) = 0) by (apply CH; exists a; auto). rewrite Ea in Z0.
  destruct (answer_arrives (pr_p pr) (pr_md5 pr) k l (Some a) (ac_Version ac) 0 L M (proj1 (proj1 (proj2 (proj2 F)))) Dl SP ltac:(lia)) as (out & EO & _ & _).
  assert (ES : concat (map fst segs) = PropFrame.wire k) by congruence.
  exists k, l. pose proof (login_received pr k l L K NB Dl segs now [] A ES) as RX. change (with_buf (opened now) []) with (opened now) in RX.
  assert (NE : concat (map fst segs) <> []).
  { rewrite ES. unfold PropFrame.wire, wire_of. intros X. apply (f_equal zlen) in X. rewrite zlen_app, zlen_be in X. pose proof (zlen_nonneg (be 4 (pk_cmd k) ++ be 4 (pk_seq k) ++ pk_body k)). change (zlen []) with 0 in X. lia. }
  specialize (RX NE). unfold login_run. rewrite run_app, RX. cbn [bind run step].
  set (c1 := spawn (note (opened now) (OGot k)) (JLogin k l)).
  assert (TK : on_task pr o2 0 c1 = with_queue (note (opened now) (OGot k)) [(KLogin k 0, out, CbLogin k 0 (Some a))]).
  { unfold on_task, c1. cbn [spawn with_tasks sc_tasks note opened app nth_error plain_job]. unfold handle_login. rewrite Key, Ea.
    destruct (login_check (pr_md5 pr) l (Some a)) as [z l1]. cbn [fst snd] in *. rewrite Z0. cbn [Z.eqb]. replace (ac_MaxConns a <=? o_cnt o2 (ac_ClientId a)) with false by lia. rewrite EO. cbn [bind]. reflexivity. }
  rewrite TK. unfold on_write. cbn [with_queue sc_open sc_queue note opened]. cbn [callback Z.eqb].
  unfold completeLogin. assert (WA : 0 <= ac_MtWindowSize a) by (eapply W; exact Ea). replace (ac_MtWindowSize a <? 0) with false by lia. cbn [bind].
  eexists. exists out, a. split; [exact L|]. split; [exact Dl|]. split; [exact Key|]. split; [exact SP|]. split; [exact Ea|]. split; [exact Z0|]. split; [reflexivity|]. split; [reflexivity|]. exact EO.
Qed.
Theorem C96_proof_partial : forall pr ac sq q ts tsn, real_md5 (pr_md5 pr) -> fitting (pr_p pr) ac -> seq_wf q -> 0 <= tsn < 2 ^ 32 -> ten_digits ts tsn -> (forall v, windows_ok (pr_find pr v)) -> pr_p pr <> P_SGIP ->
  forall now segs o2 o3, login_packet (pr_md5 pr) (pr_p pr) ac sq q ts tsn = Ok (concat (map fst segs)) -> Forall (fun x => o_acc (snd x) = true) segs ->
  entitled (pr_p pr) (pr_md5 pr) (pr_find pr (o_gen o2)) ac ts (o_cnt o2) ->
  let v3 := is_v3 (ac_Version ac) in
  exists c out a, login_run pr now segs o2 o3 = Ok c /\ written (sc_log c) = [out] /\ pr_find pr (o_gen o2) (ac_ClientId ac) = Some a /\
    proof_of (pr_p pr) v3 out = pr_md5 pr (repeat 0 (match pr_p pr with P_CMPP => if v3 then 4 else 1 | _ => 1 end) ++ ac_ClientId ac ++ ac_SharedSecret a).
Proof.
  intros pr ac sq q ts tsn M F Q T D W NP now segs o2 o3 EP A EN v3.
  destruct (login_out pr ac sq q ts tsn M F Q T D W now segs o2 o3 EP A EN) as (k & l & c & out & a & L & Dl & Key & SP & Fa & Z0 & RC & WR & EO).
  exists c, out, a. split; [exact RC|]. split; [exact WR|]. split; [exact Fa|]. clear RC WR. assert (M1 : forall x, zlen (pr_md5 pr x) = 16) by (intros x; apply M).
  destruct (pr_p pr); [|congruence|]; cbn [decode_login] in Dl; apply bind_ok in Dl as (x & Dl & EX); injection EX as <-; cbn [login_check] in *.
  - destruct (Connect_Check (pr_md5 pr) x (Some a)) as [z x'] eqn:CC. cbn [fst snd ServerModel.login_answer login_key speaks] in *. subst z.
    assert (X : cn_sourceAddr x' = ac_ClientId ac /\ cn_version x' = ac_Version ac /\ cn_secret x' = ac_SharedSecret a /\ 0 <= h_seq (cn_h x') < 2 ^ 32).
    { unfold Connect_Check in CC. destruct (negb _); [discriminate CC|]. destruct (beqb _ _); [|discriminate CC]. injection CC as <-. destruct SP as [SP1 SP2]. auto. }
    destruct X as (X1 & X2 & X3 & X4). destruct (C31_connect_resp_wire (pr_md5 pr) x' 0 M1) as (E' & L' & _); [rewrite X2; apply F|exact X4|lia|]. rewrite X1, X2, X3 in *. fold v3 in E', L'. rewrite E' in EO.
    match type of EO with Ok ?y = Ok _ => assert (EB : out = y) by congruence end. rewrite EB. cbn [Z.eqb] in *. clear - M1. unfold proof_of.
    set (dg := pr_md5 pr _). assert (LD : length dg = 16%nat) by (pose proof (M1 (if v3 then [0;0;0;0] else [0])); unfold dg; pose proof (M1 ((if v3 then [0; 0; 0; 0] else [0]) ++ ac_ClientId ac ++ ac_SharedSecret a)) as X; unfold zlen in X; lia).
    assert (ED : dg = pr_md5 pr (repeat 0 (if v3 then 4 else 1) ++ ac_ClientId ac ++ ac_SharedSecret a)) by (unfold dg; destruct v3; reflexivity).
    rewrite <- ED. clearbody dg. destruct v3; unfold render; cbn [map concat render1]; rewrite app_nil_r.
    + change (firstn 16 (dg ++ be 1 (ac_Version ac)) = dg). rewrite firstn_app, LD, Nat.sub_diag, firstn_O, app_nil_r. apply firstn_all2. lia.
    + change (firstn 16 (dg ++ be 1 (ac_Version ac)) = dg). rewrite firstn_app, LD, Nat.sub_diag, firstn_O, app_nil_r. apply firstn_all2. lia.
  - destruct (Login_Check (pr_md5 pr) x (Some a)) as [z x'] eqn:CC. cbn [fst snd ServerModel.login_answer login_key speaks] in *. subst z.
    assert (B : 0 <= h_seq (lg_h x) < 2 ^ 32 /\ is_byte (lg_version x)).
    { destruct L as (_ & LS & LB & _). unfold Login_Decode in Dl. apply bind_ok in Dl as (y1 & _ & Dl). apply bind_ok in Dl as (y2 & _ & Dl). apply bind_ok in Dl as (y3 & _ & Dl). apply bind_ok in Dl as (y4 & _ & Dl). apply bind_ok in Dl as (y5 & B5 & Dl).
      injection Dl as <-. cbn [lg_h h_seq lg_version]. split; [exact LS|]. unfold at_ in B5. destruct (_ && _); [|discriminate B5]. destruct (nth_error (pk_body k) _) eqn:NE; [|discriminate B5]. assert (z = y5) by congruence. subst z. apply nth_error_In in NE. unfold bytes_ok in LB. rewrite Forall_forall in LB. apply LB, NE. }
    destruct B as [B1 B2].
    assert (X : lg_clientID x' = ac_ClientId ac /\ lg_secret x' = ac_SharedSecret a /\ lg_h x' = lg_h x /\ lg_version x' = lg_version x).
    { unfold Login_Check in CC. destruct (negb _); [discriminate CC|]. destruct (beqb _ _); [|discriminate CC]. injection CC as <-. cbn. auto. }
    destruct X as (X1 & X2 & X3 & X4). destruct (C42_response (pr_md5 pr) x' 0 M1) as (E' & _); [rewrite X3; exact B1|lia|rewrite X4; exact B2|]. rewrite E' in EO. rewrite X1, X2, X3, X4 in EO. cbn [Z.eqb] in EO.
    match type of EO with Ok ?y = Ok _ => assert (EB : out = y) by congruence end. rewrite EB. clear - M1. unfold proof_of. change (repeat 0 1 ++ ac_ClientId ac ++ ac_SharedSecret a) with ([0] ++ ac_ClientId ac ++ ac_SharedSecret a).
    set (dg := pr_md5 pr _). assert (LD : length dg = 16%nat) by (pose proof (M1 ([0] ++ ac_ClientId ac ++ ac_SharedSecret a)) as X; unfold zlen in X; unfold dg; lia). clearbody dg.
    unfold render; cbn [map concat render1]; rewrite app_nil_r. change (firstn 16 (dg ++ be 1 (lg_version x)) = dg). rewrite firstn_app, LD, Nat.sub_diag, firstn_O, app_nil_r. apply firstn_all2. lia.
Qed.
(** The digest does not depend on the login it answers: an answer recorded once would pass for the
    answer to any later login under the same secret, even if the client looked at it. *)
Theorem C96_refuted_stale : forall pr ac sq q ts tsn sq' q' ts' tsn', real_md5 (pr_md5 pr) -> fitting (pr_p pr) ac -> (forall v, windows_ok (pr_find pr v)) -> pr_p pr <> P_SGIP ->
  seq_wf q -> 0 <= tsn < 2 ^ 32 -> ten_digits ts tsn -> seq_wf q' -> 0 <= tsn' < 2 ^ 32 -> ten_digits ts' tsn' ->
  forall now segs o2 o3 now' segs' o2' o3', login_packet (pr_md5 pr) (pr_p pr) ac sq q ts tsn = Ok (concat (map fst segs)) -> Forall (fun x => o_acc (snd x) = true) segs -> entitled (pr_p pr) (pr_md5 pr) (pr_find pr (o_gen o2)) ac ts (o_cnt o2) ->
  login_packet (pr_md5 pr) (pr_p pr) ac sq' q' ts' tsn' = Ok (concat (map fst segs')) -> Forall (fun x => o_acc (snd x) = true) segs' -> entitled (pr_p pr) (pr_md5 pr) (pr_find pr (o_gen o2')) ac ts' (o_cnt o2') ->
  (forall a a', pr_find pr (o_gen o2) (ac_ClientId ac) = Some a -> pr_find pr (o_gen o2') (ac_ClientId ac) = Some a' -> ac_SharedSecret a = ac_SharedSecret a') ->
  let v3 := is_v3 (ac_Version ac) in
  exists c out c' out', login_run pr now segs o2 o3 = Ok c /\ written (sc_log c) = [out] /\ login_run pr now' segs' o2' o3' = Ok c' /\ written (sc_log c') = [out'] /\
    proof_of (pr_p pr) v3 out = proof_of (pr_p pr) v3 out'.
Proof.
  intros pr ac sq q ts tsn sq' q' ts' tsn' M F W NP Q T D Q' T' D' now segs o2 o3 now' segs' o2' o3' E A EN E' A' EN' SS v3.
  destruct (C96_proof_partial pr ac sq q ts tsn M F Q T D W NP now segs o2 o3 E A EN) as (c & out & a & RC & WR & Fa & P).
  destruct (C96_proof_partial pr ac sq' q' ts' tsn' M F Q' T' D' W NP now' segs' o2' o3' E' A' EN') as (c' & out' & a' & RC' & WR' & Fa' & P').
  exists c, out, c', out'. split; [exact RC|]. split; [exact WR|]. split; [exact RC'|]. split; [exact WR'|]. specialize (SS a a' Fa Fa'). fold v3 in P, P'. rewrite P, P', SS. reflexivity.
Qed.

(** ** C97 *)
(** CMPP and SMGP: the login packet is the same for every secret that gives the same digest. *)
Theorem C97_login_partial : forall md5 p a b sq q ts tsn, p <> P_SGIP -> same_but_secret a b ->
  (let z := match p with P_CMPP => repeat 0 9 | _ => repeat 0 7 end in md5 (ac_ClientId a ++ z ++ ac_SharedSecret a ++ ts) = md5 (ac_ClientId a ++ z ++ ac_SharedSecret b ++ ts)) ->
  login_packet md5 p a sq q ts tsn = login_packet md5 p b sq q ts tsn.
Proof.
  intros md5 p a b sq q ts tsn NP SB E. unfold same_but_secret in SB. destruct SB as (E1 & E2 & E3 & E4 & E5 & E6 & E7 & E8 & E9 & E10 & E11 & E12 & E13 & E14 & E15 & E16 & E17 & E18 & E19).
  destruct p; [|congruence|]; cbn [login_packet] in *; [unfold NewConnect|unfold NewLogin]; cbn [repeat zeros] in *; unfold zeros; cbn [Z.to_nat repeat Pos.to_nat Pos.iter_op Nat.add] in *; rewrite <- E2, <- E4; (f_equal; f_equal; exact E).
Qed.
(** SGIP: it contains the secret. *)
Theorem C97_refuted : forall md5 ac sq q ts tsn b, fitting P_SGIP ac -> seq_wf q -> login_packet md5 P_SGIP ac sq q ts tsn = Ok b -> contains b (ac_SharedSecret ac).
Proof.
  intros md5 ac sq q ts tsn b (B1 & B2 & W & F1 & F2) Q E. cbn [login_packet] in E. destruct q as [[q0 q1] q2]. destruct Q as (Q1 & Q2 & Q3).
  destruct (C38_bind (NewBind ac 1 (q0, q1, q2))) as [E' _]; [reflexivity|reflexivity|repeat split; tauto|unfold is_byte; cbn; lia|]. rewrite E' in E. match type of E with Ok ?y = Ok _ => assert (EB : b = y) by congruence end. rewrite EB.
  cbn [NewBind bd_h bd_type bd_name bd_pwd sh_seq]. assert (RA : forall x y, render (x ++ y) = render x ++ render y) by (intros x y; unfold render; rewrite map_app, concat_app; reflexivity).
  exists (render (head20 61 1 (q0, q1, q2) ++ [U 1 1; T 16 (ac_ClientId ac)])), (repeat 0 (16 - length (ac_SharedSecret ac)) ++ render [T 8 []]).
  rewrite !RA. unfold render at 2 4. cbn [map concat render1]. rewrite <- !app_assoc. f_equal. do 2 f_equal. cbn [app]. unfold fit at 1. rewrite firstn_all2 by apply F2. unfold render. cbn [map concat render1]. rewrite <- app_assoc. reflexivity.
Qed.
(** *** Everything else the client does *)
Definition hide_ac (a : authconf) : authconf :=
  AuthConf (ac_ISP a) (ac_ClientId a) (ac_LoginName a) [] (ac_Version a) (ac_NeedReport a) (ac_SmsDisplayNo a) (ac_ServiceId a) (ac_DefaultMsgLevel a) (ac_FeeUserType a) (ac_FeeTerminalType a) (ac_FeeTerminalId a)
    (ac_FeeType a) (ac_FeeCode a) (ac_FixedFee a) (ac_LinkId a) (ac_MtValidDuration a) (ac_MaxConns a) (ac_MtWindowSize a) (ac_Throughput a).
Definition hide (s : csess) : csess := CSess (cs_p s) (cs_stat s) (cs_con s) (option_map hide_ac (cs_ac s)) (cs_pcnt s) (cs_active s).
Definition hide_all (c : cstate) : cstate := CState (map hide (ct_sess c)) (ct_ca c) (ct_send c) (ct_log c).
Definition rmap {A B} (f : A -> B) (x : res A) : res B := match x with Ok a => Ok (f a) | Err e => Err e | Panic => Panic end.
Lemma same_hide a b : same_but_secret a b -> hide_ac a = hide_ac b.
Proof. unfold same_but_secret, hide_ac. intros (-> & -> & -> & -> & -> & -> & -> & -> & -> & -> & -> & -> & -> & -> & -> & -> & -> & -> & ->). reflexivity. Qed.
Lemma same_hides s t : same_session s t -> hide s = hide t.
Proof. unfold same_session, hide. intros (-> & -> & -> & -> & -> & H). f_equal. destruct (cs_ac s), (cs_ac t); cbn [option_map]; try contradiction; [f_equal; apply same_hide, H|reflexivity]. Qed.
Lemma segments_hide p gbe ac phone msg ops d : segments p gbe (hide_ac ac) phone msg ops d = segments p gbe ac phone msg ops d.
Proof. destruct p; reflexivity. Qed.
Lemma Close_hide s : Close (hide s) = rmap hide (Close s).
Proof. destruct s as [p st con ac pc a]. unfold Close, hide. cbn [cs_stat cs_con cs_p cs_pcnt cs_active]. destruct st, con; reflexivity. Qed.
Lemma version_hide s : version_of (hide s) = version_of s.
Proof. unfold version_of, hide. cbn [cs_ac]. destruct (cs_ac s); reflexivity. Qed.
Definition hide_out (x : hout) : hout := let '(s, ca, l) := x in (hide s, ca, l).
Lemma rmap_bind {A B C} (f : B -> C) (x : res A) (k : A -> res B) : rmap f (bind x k) = bind x (fun a => rmap f (k a)).
Proof. destruct x; reflexivity. Qed.
Lemma bind_ext' {A B} (x : res A) (k k' : A -> res B) : (forall a, k a = k' a) -> bind x k = bind x k'.
Proof. intros H. destruct x; cbn [bind]; auto. Qed.
Lemma touch_hide s now : touch (hide s) now = hide (touch s now).
Proof. reflexivity. Qed.
Lemma reply_hide s e : reply_with (hide s) e = reply_with s e.
Proof. reflexivity. Qed.
Lemma closing_hide s ca l : ClientModel.closing (hide s) ca l = rmap hide_out (ClientModel.closing s ca l).
Proof. unfold ClientModel.closing. rewrite Close_hide. destruct (Close s); reflexivity. Qed.
Lemma answer_hide s ca e o : answer_or_close (hide s) ca e o = rmap hide_out (answer_or_close s ca e o).
Proof. unfold answer_or_close. rewrite rmap_bind, reply_hide. apply bind_ext'. intros b. destruct (g_err o); [apply closing_hide|reflexivity]. Qed.
Ltac hides :=
  repeat match goal with
  | |- (if ?b then _ else _) = rmap _ (if ?b then _ else _) => destruct b
  | |- bind _ _ = rmap _ (bind _ _) => rewrite rmap_bind, ?version_hide, ?reply_hide; apply bind_ext'; intros ?
  | |- ClientModel.closing _ _ _ = _ => apply closing_hide
  | |- answer_or_close _ _ _ _ = _ => apply answer_hide
  | |- nothing _ _ = _ => reflexivity
  | |- Panic = _ => reflexivity
  end.
Lemma traffic_hide gbd s ca cmd seq f o : c_onTraffic gbd (hide s) ca cmd seq f o = rmap hide_out (c_onTraffic gbd s ca cmd seq f o).
Proof.
  unfold c_onTraffic. change (cs_p (hide s)) with (cs_p s). destruct (cs_p s).
  - unfold onTrafficCmpp. cbv zeta. rewrite touch_hide. hides.
    destruct (g_err o); [rewrite Close_hide; destruct (Close _); reflexivity|reflexivity].
  - unfold onTrafficSgip. cbv zeta. rewrite touch_hide. hides.
  - unfold onTrafficSmgp. cbv zeta. rewrite touch_hide. hides.
    destruct (MDeliver_Decode _ _ _ _); [|apply closing_hide|reflexivity]. hides. destruct (g_err o); [rewrite Close_hide; destruct (Close _); reflexivity|reflexivity].
Qed.
Lemma put_sess_hide c i s : put_sess (hide_all c) i (hide s) = hide_all (put_sess c i s).
Proof. unfold put_sess, hide_all. cbn [ct_sess ct_ca ct_send ct_log]. f_equal. rewrite !map_app, firstn_map, skipn_map. reflexivity. Qed.
Lemma used_hide c i now : used (hide_all c) i now = hide_all (used c i now).
Proof. unfold used. cbn [hide_all ct_sess]. rewrite nth_error_map. destruct (nth_error (ct_sess c) i) as [s|]; [|reflexivity]. cbn [option_map]. change (AddCounter (hide s) now) with (hide (AddCounter s now)). apply put_sess_hide. Qed.
Lemma cstep_hide pr c e : cstep pr (hide_all c) e = rmap hide_all (cstep pr c e).
Proof.
  destruct e as [q msg ops phones|t choice d now|t ok now|t now|t|i cmd seq body o|i|h d now|d now|d now]; cbn [cstep hide_all ct_send ct_ca ct_sess ct_log].
  - destruct phones; reflexivity.
  - destruct (nth_error (ct_send c) t) as [s|]; [|reflexivity]. destruct (sn_ph s); try reflexivity. destruct (sn_todo s) as [|phone rest]; [reflexivity|]. destruct choice as [i|]; [|reflexivity].
    rewrite nth_error_map. destruct (nth_error (ct_sess c) i) as [ss|]; [|reflexivity]. cbn [option_map]. assert (HH : HealthCheck (hide ss) = HealthCheck ss) by (unfold HealthCheck, hide; cbn [cs_stat cs_con cs_ac]; destruct (cs_stat ss), (cs_con ss), (cs_ac ss); reflexivity).
    rewrite HH. destruct (HealthCheck ss); [|reflexivity]. unfold hide at 1. cbn [cs_ac]. destruct (cs_ac ss) as [ac|]; [|reflexivity]. cbn [option_map]. rewrite rmap_bind. change (cs_p (hide ss)) with (cs_p ss). rewrite segments_hide. apply bind_ext'. intros [|x l]; [|reflexivity].
    cbn [rmap]. f_equal. change (CState (map hide (ct_sess c)) (ct_ca c) (ct_send c) (ct_log c)) with (hide_all c). change (put_send (hide_all c) t (phase s rest (sn_res s) SNext)) with (hide_all (put_send c t (phase s rest (sn_res s) SNext))). rewrite used_hide. reflexivity.
  - destruct (nth_error (ct_send c) t) as [s|]; [|reflexivity]. destruct (sn_ph s) as [|i phone parts done|i phone b key parts done|]; try reflexivity. destruct parts as [|[enc key] r]; [reflexivity|]. rewrite nth_error_map.
    destruct (nth_error (ct_sess c) i) as [ss|]; [|reflexivity]. cbn [option_map]. rewrite rmap_bind, reply_hide. apply bind_ext'. intros b. destruct ok; [reflexivity|]. rewrite rmap_bind, Close_hide. destruct (Close ss) as [s1| |]; [|reflexivity|reflexivity]. cbn [rmap bind]. f_equal.
    change (CState (map hide (ct_sess c)) (ct_ca c) (ct_send c) (ct_log c)) with (hide_all c). rewrite put_sess_hide. change (put_send (hide_all (put_sess c i s1)) t (phase s (sn_todo s) (sn_res s) SNext)) with (hide_all (put_send (put_sess c i s1) t (phase s (sn_todo s) (sn_res s) SNext))). rewrite used_hide. reflexivity.
  - destruct (nth_error (ct_send c) t) as [s|]; [|reflexivity]. destruct (sn_ph s) as [|i phone parts done|i phone b key parts done|]; try reflexivity. cbv zeta.
    assert (EP : match nth_error (map hide (ct_sess c)) i with Some ss => cs_p ss | None => P_CMPP end = match nth_error (ct_sess c) i with Some ss => cs_p ss | None => P_CMPP end) by (rewrite nth_error_map; destruct (nth_error (ct_sess c) i); reflexivity).
    cbn [put_ca say ct_sess ct_ca ct_send ct_log]. rewrite EP. destruct parts; [|reflexivity]. cbn [rmap]. f_equal.
    match goal with |- _ = hide_all (used ?c1 _ _) => change (used (hide_all c1) i now = hide_all (used c1 i now)) end. apply used_hide.
  - destruct (nth_error (ct_send c) t) as [s|]; [|reflexivity]. destruct (sn_ph s); try reflexivity. destruct (sn_todo s); reflexivity.
  - rewrite nth_error_map. destruct (nth_error (ct_sess c) i) as [ss|]; [|reflexivity]. cbn [option_map]. rewrite rmap_bind, traffic_hide. destruct (c_onTraffic _ ss _ _ _ _ _) as [[[s1 ca] out]| |]; [|reflexivity|reflexivity]. cbn [rmap hide_out bind]. f_equal.
    change (CState (map hide (ct_sess c)) (ct_ca c) (ct_send c) (ct_log c)) with (hide_all c). rewrite put_sess_hide. reflexivity.
  - rewrite nth_error_map. destruct (nth_error (ct_sess c) i) as [ss|]; [|reflexivity]. cbn [option_map]. rewrite rmap_bind, Close_hide. destruct (Close ss); [|reflexivity|reflexivity]. cbn [rmap bind]. f_equal.
    change (CState (map hide (ct_sess c)) (ct_ca c) (ct_send c) (ct_log c)) with (hide_all c). apply put_sess_hide.
  - reflexivity.
  - reflexivity.
  - reflexivity.
Qed.
Lemma crun_hide pr es : forall c, crun pr (hide_all c) es = rmap hide_all (crun pr c es).
Proof. induction es as [|e es IH]; intros c; [reflexivity|]. cbn [crun]. rewrite cstep_hide, rmap_bind. destruct (cstep pr c e) as [c1| |]; cbn [rmap bind]; auto. Qed.
(** After the login: two clients whose accounts differ in the secret only send the same packets, give
    the same results and end, or panic, alike, whatever happens to both of them. *)
Theorem C97_traffic : forall pr ss ss' es, Forall2 same_session ss ss' ->
  match crun pr (cstart ss) es, crun pr (cstart ss') es with
  | Ok c, Ok c' => ct_log c = ct_log c' /\ ct_ca c = ct_ca c' /\ ct_send c = ct_send c' /\ Forall2 same_session (ct_sess c) (ct_sess c')
  | Err e, Err e' => e = e'
  | Panic, Panic => True
  | _, _ => False
  end.
Proof.
  intros pr ss ss' es F. assert (H : map hide ss = map hide ss') by (induction F; [reflexivity|cbn [map]; f_equal; [apply same_hides; assumption|assumption]]).
  pose proof (crun_hide pr es (cstart ss)) as A. pose proof (crun_hide pr es (cstart ss')) as B. assert (E : hide_all (cstart ss) = hide_all (cstart ss')) by (unfold hide_all, cstart; cbn [ct_sess ct_ca ct_send ct_log]; rewrite H; reflexivity).
  rewrite E, B in A. clear B E H F. destruct (crun pr (cstart ss) es) as [c|e|], (crun pr (cstart ss') es) as [c'|e'|]; cbn [rmap] in A; try discriminate A; [|congruence|exact Logic.I].
  assert (A' : hide_all c' = hide_all c) by congruence. clear A. unfold hide_all in A'. assert (X : forall a b l k a' b' l' k', CState a b l k = CState a' b' l' k' -> a = a' /\ b = b' /\ l = l' /\ k = k') by (intros; repeat split; congruence).
  apply X in A' as (A1 & A2 & A3 & A4). repeat split; try congruence. clear A2 A3 A4 X. revert A1. generalize (ct_sess c) as l, (ct_sess c') as l'. induction l as [|s l IH]; intros [|t l'] M; cbn [map] in M; try discriminate M; constructor.
  - clear IH. assert (M1 : hide t = hide s) by congruence. clear M. destruct s as [p st con ac pc a], t as [p' st' con' ac' pc' a']. unfold hide in M1. cbn [cs_p cs_stat cs_con cs_ac cs_pcnt cs_active] in M1.
    assert (Y : forall x1 x2 x3 x4 x5 x6 y1 y2 y3 y4 y5 y6, CSess x1 x2 x3 x4 x5 x6 = CSess y1 y2 y3 y4 y5 y6 -> x1 = y1 /\ x2 = y2 /\ x3 = y3 /\ x4 = y4 /\ x5 = y5 /\ x6 = y6) by (intros; repeat split; congruence).
    apply Y in M1 as (-> & -> & -> & M1 & -> & ->). unfold same_session. cbn [cs_p cs_stat cs_con cs_ac cs_pcnt cs_active]. repeat split; auto. destruct ac as [x|], ac' as [y|]; cbn [option_map] in M1; try discriminate M1; [|exact Logic.I].
    assert (M2 : hide_ac y = hide_ac x) by congruence. destruct x, y. unfold hide_ac in M2. cbn in M2. unfold same_but_secret. cbn. injection M2. intros. subst. repeat split.
  - apply IH. congruence.
Qed.

(** ** Cases *)
Definition tr_ts : bytes := [49;49;49;54;48;48;48;48;48;48].
Definition tr_login (p : proto) (secret : bytes) : bytes := match login_packet end_md5 p (end_acc (end_id p) secret) 7 (1, 2, 3) tr_ts 1116000000 with Ok b => b | _ => [] end.
(** One login packet, sent once in two segments and a second time, later, in one. *)
Example C95_case : forall p, exists c c', let b := tr_login p [115;51] in
  login_packet end_md5 p (end_acc (end_id p) [115;51]) 7 (1, 2, 3) tr_ts 1116000000 = Ok b /\ b <> [] /\
  login_run (end_pr p) 0 [(firstn 20 b, end_orc 0); (skipn 20 b, end_orc 0)] (end_orc 0) (end_orc 0) = Ok c /\ se_stat (sc_sess c) = StatLogin /\
  login_run (end_pr p) 86400000000000 [(b, end_orc 0)] (end_orc 0) (end_orc 0) = Ok c' /\ se_stat (sc_sess c') = StatLogin /\ se_cid (sc_sess c') = end_id p.
Proof.
  intros p. cbv zeta. destruct (login_run (end_pr p) 0 [(firstn 20 (tr_login p [115;51]), end_orc 0); (skipn 20 (tr_login p [115;51]), end_orc 0)] (end_orc 0) (end_orc 0)) as [c| |] eqn:E1; [|destruct p; vm_compute in E1; discriminate E1|destruct p; vm_compute in E1; discriminate E1].
  destruct (login_run (end_pr p) 86400000000000 [(tr_login p [115;51], end_orc 0)] (end_orc 0) (end_orc 0)) as [c'| |] eqn:E2; [|destruct p; vm_compute in E2; discriminate E2|destruct p; vm_compute in E2; discriminate E2].
  exists c, c'. split; [destruct p; vm_compute; reflexivity|]. split; [destruct p; vm_compute; discriminate|]. split; [reflexivity|].
  destruct p; vm_compute in E1, E2; injection E1 as <-; injection E2 as <-; repeat split; reflexivity.
Qed.
(** With end_md5 in place of md5 the packet's digest is accepted with the packet's own time and not with another. *)
Example C95_digest_case : forall a, a = end_acc (end_id P_CMPP) [115;51] ->
  let c := NewConnect end_md5 a 7 tr_ts 1116000000 in
  fst (Connect_Check end_md5 c (Some a)) = 0 /\ fst (Connect_Check end_md5 (Connect (cn_h c) (cn_sourceAddr c) (cn_auth c) (cn_version c) 1116000001 []) (Some a)) = 3.
Proof. intros a ->. split; vm_compute; reflexivity. Qed.
(** The server's proof for the first of these logins and what the client makes of sixteen zeros. *)
Example C96_case : forall p, p <> P_SGIP -> exists c out, let b := tr_login p [115;51] in
  login_run (end_pr p) 0 [(b, end_orc 0)] (end_orc 0) (end_orc 0) = Ok c /\ written (sc_log c) = [out] /\
  proof_of p true out = end_md5 ((match p with P_CMPP => [0;0;0;0] | _ => [0] end) ++ end_id p ++ [115;51]) /\
  let forged := firstn 16 out ++ repeat 0 16 ++ skipn 32 out in exists s, NewSession p (end_acc (end_id p) [115;51]) true [Data forged] 9 = Ok (MSess s []) /\ HealthCheck s = true.
Proof.
  intros p NP. destruct p; [|congruence|].
  - eexists. eexists. cbv zeta. split; [vm_compute; reflexivity|]. split; [vm_compute; reflexivity|]. split; [vm_compute; reflexivity|]. eexists. split; vm_compute; reflexivity.
  - eexists. eexists. cbv zeta. split; [vm_compute; reflexivity|]. split; [vm_compute; reflexivity|]. split; [vm_compute; reflexivity|]. eexists. split; vm_compute; reflexivity.
Qed.
(** Two secrets of one digest, and two of different digests; the same message sent with both. *)
Definition tr_sess (secret : bytes) : csess := CSess P_CMPP CLogin true (Some (end_acc (end_id P_CMPP) secret)) 0 0.
Definition tr_send : list cevent := [CBegin 7 [72;105] [] [[49;51]]; CPick 0 (Some 0%nat) (DOrc 5 (fun i => i) (fun i => (1, 2, i)) [] [] 9) 1; CWrite 0 true 2; CRecord 0 3; CDone 0].
Example C97_case :
  tr_login P_CMPP [1;2;3;4;5;6;7] = tr_login P_CMPP [9;2;3;4;5;6;7] /\ tr_login P_CMPP [1;2] <> tr_login P_CMPP [9;2] /\ contains (tr_login P_SGIP [115;51]) [115;51] /\
  same_session (tr_sess [1;2]) (tr_sess [9;2]) /\ exists c c' b, crun (CParams (fun _ => None) (fun _ => None)) (cstart [tr_sess [1;2]]) tr_send = Ok c /\ crun (CParams (fun _ => None) (fun _ => None)) (cstart [tr_sess [9;2]]) tr_send = Ok c'
    /\ ct_log c = [OPick 0 [49;51]; OWrote 0 0 b; ORec 0 P_CMPP [49;51] b; ORet 7] /\ ct_log c' = ct_log c.
Proof.
  split; [vm_compute; reflexivity|]. split; [vm_compute; discriminate|]. split; [exists (firstn 37 (tr_login P_SGIP [115;51])), (skipn 39 (tr_login P_SGIP [115;51])); vm_compute; reflexivity|].
  split; [unfold same_session, same_but_secret; cbn; repeat split; reflexivity|]. eexists. eexists. eexists. split; [vm_compute; reflexivity|]. split; [vm_compute; reflexivity|]. split; vm_compute; reflexivity.
Qed.
Print Assumptions C95_refuted.
Print Assumptions C95_digest_partial.
Print Assumptions C96_refuted.
Print Assumptions C96_proof_partial.
Print Assumptions C96_refuted_stale.
Print Assumptions C97_login_partial.
Print Assumptions C97_refuted.
Print Assumptions C97_traffic.

(** * PropStatus: property C104 (the log says what a result code means). *)
From Coq Require Import String.
From Verif Require Import Base UtilsModel SpecText UtilsProofs SpecWire OptionsModel CmppModel SgipModel SmgpModel FrameModel ServerModel LogModel StatusModel
  SpecServer CmppBuildProofs ServerProofs PropServer PropWindow PropAnswers PropEnd PropWhy PropLog.
Import LogModel.
Local Open Scope Z_scope.
Local Open Scope list_scope.

(** ** Specification *)
(** The octets of a text. *)
Fixpoint octets (s : string) : bytes :=
  match s with EmptyString => [] | String.String c r => Z.of_nat (Ascii.nat_of_ascii c) :: octets r end.
(** A logged status: the number in decimal, a colon, a space, the meaning. *)
Definition reads (v : bytes) (n : Z) (t : bytes) : Prop :=
  exists d, v = d ++ [58; 32] ++ t /\ d <> [] /\ Forall is_digit d /\ dec_value d = n.
Definition status_reads (fs : list field) (n : Z) (t : bytes) : Prop :=
  exists v, value_of "status"%string fs = Some (FS v) /\ reads v n t.
(** Why a login is answered as it is, and the words of the protocols for it. *)
Inductive reason := Unknown | OtherVersion | WrongSecret | TooMany | Accepted.
Definition words (p : proto) (r : reason) : string :=
  match p, r with
  | P_CMPP, Unknown => "非法源地址" | P_CMPP, OtherVersion => "版本太高" | P_CMPP, WrongSecret => "认证错"
  | P_CMPP, TooMany => "其他错误" | _, Accepted => "成功"
  | P_SGIP, TooMany => "连接过多, 指单个节点要求同时建立的连接数过多。"
  | P_SGIP, _ => "非法登录, 如登录名、口令出错、登录名与口令不符等。"
  | P_SMGP, Unknown => "非法SP企业代码（SPID）" | P_SMGP, OtherVersion => "版本太高" | P_SMGP, WrongSecret => "认证错"
  | P_SMGP, TooMany => "超过最大连接数"
  end.
Definition because (p : proto) (md5 : bytes -> bytes) (find : bytes -> option authconf) (cnt : bytes -> Z) (k : packet) (r : reason) : Prop :=
  match r, find (named p k) with
  | Unknown, f => f = None
  | _, None => False
  | OtherVersion, Some a => p <> P_SGIP /\ major (version_in p k) <> major (ac_Version a)
  | WrongSecret, Some a => (p <> P_SGIP -> major (version_in p k) = major (ac_Version a)) /\ ~ genuine p md5 find k a
  | TooMany, Some a => genuine p md5 find k a /\ ac_MaxConns a <= cnt (ac_ClientId a)
  | Accepted, Some a => genuine p md5 find k a /\ cnt (ac_ClientId a) < ac_MaxConns a
  end.
(** The limit of connections of the account named is reached. *)
Definition full (find : bytes -> option authconf) (cnt : bytes -> Z) (name : bytes) : bool :=
  match find name with Some a => ac_MaxConns a <=? cnt (ac_ClientId a) | None => false end.
(** The words for the results the server gives to a submit. *)
Definition submit_words (p : proto) (code : Z) : option string :=
  match p with
  | P_CMPP => if code =? 0 then Some "正确"%string else if code =? 8 then Some "流量控制错"%string else None
  | P_SGIP => if code =? 0 then Some "成功"%string else if code =? 33 then Some "短信中心队列满"%string else None
  | P_SMGP => if code =? 0 then Some "成功"%string else if code =? 1 then Some "系统忙"%string else if code =? 75 then Some "SP发送超过日流量"%string else None
  end.
(** The codes the protocols explain, per packet and protocol. *)
Inductive about := ALogin | ASubmit | ADeliver.
Definition explained (w : about) (p : proto) (s : Z) : bool :=
  match p with
  | P_CMPP => (0 <=? s) && (s <=? match w with ALogin => 5 | ASubmit => 13 | ADeliver => 9 end)
  | P_SGIP => ((0 <=? s) && (s <=? 11)) || ((21 <=? s) && (s <=? 33))
  | P_SMGP => ((0 <=? s) && (s <=? 2)) || ((10 <=? s) && (s <=? 12)) || ((20 <=? s) && (s <=? 22)) || ((30 <=? s) && (s <=? 49)) || ((56 <=? s) && (s <=? 76))
  end.
Definition names (w : about) : proto -> Z -> bytes := match w with ALogin => login_names | ASubmit => submit_names | ADeliver => deliver_names end.

(** ** Lemmas *)
Lemma octets_ascii s : ascii_bytes s = octets s.
Proof. induction s as [|c s IH]; [reflexivity|]. cbn. f_equal; exact IH. Qed.
Lemma status_String_reads names s : 0 <= s < 2 ^ 64 -> reads (status_String names s) s (names s).
Proof.
  intros H. assert (B : 2 ^ 64 <= 10 ^ Z.of_nat 20) by (vm_compute; discriminate).
  destruct (dec_fuel_spec 20 s) as (V & D & L & _); [lia|lia|]. exists (FormatInt s). unfold status_String. split; [reflexivity|].
  unfold FormatInt. replace (s <? 0) with false by lia. split; [|auto]. intros E. rewrite E in L. cbn [Datatypes.length] in L. lia.
Qed.
Lemma digits_stop d d' (t t' : bytes) : Forall is_digit d -> Forall is_digit d' -> d ++ 58 :: t = d' ++ 58 :: t' -> d = d' /\ t = t'.
Proof.
  revert d'. induction d as [|x d IH]; intros d' H H' E.
  - destruct d' as [|y d']; cbn in E; [injection E as E2; auto|]. injection E as E1 E2. inversion H' as [|? ? Hy _]; subst. unfold is_digit in Hy. lia.
  - inversion H as [|? ? Hx Hd]; subst. destruct d' as [|y d']; cbn in E; injection E as E1 E2; [unfold is_digit in Hx; lia|].
    inversion H' as [|? ? Hy Hd']; subst. destruct (IH d' Hd Hd' E2) as [-> ->]. auto.
Qed.

(** ** Theorems *)
(** What a status reads is one number and one text; so no two codes are logged alike, whatever the
    words for them. *)
Theorem C104_number : (forall v n t n' t', reads v n t -> reads v n' t' -> n = n' /\ t = t') /\
  forall w p s, 0 <= s < 2 ^ 64 -> reads (status_String (names w p) s) s (names w p s) /\
    forall s', 0 <= s' < 2 ^ 64 -> status_String (names w p) s = status_String (names w p) s' -> s = s'.
Proof.
  assert (ONE : forall v n t n' t', reads v n t -> reads v n' t' -> n = n' /\ t = t').
  { intros v n t n' t' (d & E & _ & D & N) (d' & E' & _ & D' & N'). rewrite E in E'. cbn [app] in E'.
    destruct (digits_stop d d' _ _ D D' E') as [-> X]. injection X as ->. split; [congruence|auto]. }
  split; [exact ONE|]. intros w p s H. pose proof (status_String_reads (names w p) s H) as R1. split; [exact R1|].
  intros s' H' E. pose proof (status_String_reads (names w p) s' H') as R2. rewrite <- E in R2. exact (proj1 (ONE _ _ _ _ _ R1 R2)).
Qed.
(** A code has words exactly if the protocol's table lists it, and no two listed codes share them. *)
Lemma map_at_in m s : map_at m s <> [] -> In s (map fst m).
Proof. induction m as [|[k x] m IH]; [intros H; exact (H eq_refl)|]. cbn [map_at map fst]. destruct (s =? k) eqn:E; [left; lia|]. intros H. right. auto. Qed.
Fixpoint lookup (m : status_map) (s : Z) : option string := match m with [] => None | (k, x) :: r => if s =? k then Some x else lookup r s end.
Lemma map_at_lookup m s : map_at m s = match lookup m s with Some x => ascii_bytes x | None => [] end.
Proof. induction m as [|[k x] m IH]; [reflexivity|]. cbn [map_at lookup]. destruct (s =? k); auto. Qed.
Lemma ascii_bytes_inj x y : ascii_bytes x = ascii_bytes y -> x = y.
Proof.
  revert y. induction x as [|c x IH]; intros [|d y] E; try discriminate E; [reflexivity|]. cbn [ascii_bytes] in E. injection E as E1 E2.
  apply Nat2Z.inj in E1. rewrite <- (Ascii.ascii_nat_embedding c), <- (Ascii.ascii_nat_embedding d), E1, (IH y E2). reflexivity.
Qed.
Definition same (a b : option string) : bool := match a, b with Some x, Some y => String.eqb x y | _, _ => false end.
Definition table_ok (m : status_map) (ex : Z -> bool) : bool :=
  forallb (fun s => ex s && match lookup m s with Some EmptyString | None => false | _ => true end) (map fst m) &&
  forallb (fun s => forallb (fun s' => (s =? s') || negb (same (lookup m s) (lookup m s'))) (map fst m)) (map fst m).
Lemma table_words m ex : table_ok m ex = true -> (forall s, ex s = true -> In s (map fst m)) ->
  (forall s, map_at m s <> [] <-> ex s = true) /\ forall s s', ex s = true -> ex s' = true -> map_at m s = map_at m s' -> s = s'.
Proof.
  intros T C. unfold table_ok in T. apply andb_true_iff in T as [A B]. rewrite forallb_forall in A, B.
  assert (N : forall s, ex s = true -> exists x, lookup m s = Some x /\ x <> EmptyString).
  { intros s H. specialize (A s (C s H)). apply andb_true_iff in A as [_ A]. destruct (lookup m s) as [[|c x]|]; try discriminate A. eexists. split; [reflexivity|discriminate]. }
  split.
  - intros s. split; intros H.
    + apply map_at_in, A, andb_true_iff in H. apply H.
    + destruct (N s H) as (x & E & X). rewrite map_at_lookup, E. destruct x; [congruence|discriminate].
  - intros s s' H H' E. specialize (B s (C s H)). rewrite forallb_forall in B. specialize (B s' (C s' H')). apply orb_true_iff in B as [B|B]; [lia|].
    exfalso. destruct (N s H) as (x & L1 & _), (N s' H') as (y & L2 & _). rewrite !map_at_lookup, L1, L2 in E. apply ascii_bytes_inj in E. subst y.
    rewrite L1, L2 in B. cbn [same] in B. rewrite String.eqb_refl in B. discriminate B.
Qed.
Theorem C104_words : forall w p,
  (forall s, 0 <= s < 2 ^ 32 -> (names w p s <> [] <-> explained w p s = true)) /\
  forall s s', explained w p s = true -> explained w p s' = true -> names w p s = names w p s' -> s = s'.
Proof.
  intros w p.
  assert (G : forall m, table_ok m (explained w p) = true -> (forall s, explained w p s = true -> In s (map fst m)) ->
    (forall s, 0 <= s < 2 ^ 32 -> names w p s = map_at m s) ->
    (forall s, 0 <= s < 2 ^ 32 -> (names w p s <> [] <-> explained w p s = true)) /\
    forall s s', explained w p s = true -> explained w p s' = true -> names w p s = names w p s' -> s = s').
  { intros m T C E. destruct (table_words m _ T C) as [A B]. split; [intros s H; rewrite E by exact H; apply A|].
    assert (RR : forall s, explained w p s = true -> 0 <= s < 2 ^ 32) by (intros s H; unfold explained in H; destruct p; [destruct w|..]; change (2 ^ 32) with 4294967296; lia).
    intros s s' H H' X. rewrite !E in X by auto. exact (B s s' H H' X). }
  assert (U : forall s, 0 <= s < 2 ^ 32 -> u32 s = s) by (intros s H; apply Z.mod_small; exact H).
  destruct p; [destruct w|..].
  - apply (G ConnectStatusMap); [vm_compute; reflexivity| |intros s H; cbn [names login_names]; rewrite U by exact H; reflexivity]. intros s H. unfold explained in H. cbn [ConnectStatusMap map fst In]. lia.
  - apply (G SubmitResultMap); [vm_compute; reflexivity| |intros s H; cbn [names submit_names]; rewrite U by exact H; reflexivity]. intros s H. unfold explained in H. cbn [SubmitResultMap map fst In]. lia.
  - apply (G DeliveryResultMap); [vm_compute; reflexivity| |intros s H; cbn [names deliver_names]; rewrite U by exact H; reflexivity]. intros s H. unfold explained in H. cbn [DeliveryResultMap map fst In]. lia.
  - apply (G ResultMap); [destruct w; vm_compute; reflexivity| |intros s H; destruct w; reflexivity]. intros s H. unfold explained in H. cbn [ResultMap map fst In]. lia.
  - apply (G StatMap); [destruct w; vm_compute; reflexivity| |intros s H; destruct w; reflexivity]. intros s H. unfold explained in H. cbn [StatMap map fst In]. lia.
Qed.

(** The line written when a login's answer has gone out shows the answer's number and, in the
    words of the protocol, the first thing wrong with the login. *)
Theorem C104_login_partial : forall p md5 find cnt ls ls' k lines, pk_cmd k = 1 -> bytes_ok (pk_body k) -> session_fields ls' ->
  login_lines p md5 (login_names p) find ls ls' None (full find cnt (named p k)) true k = Ok lines -> (exists l, decode_login p k = Ok l) ->
  exists front ln r code, lines = front ++ [ln] /\ ln_level ln = LInfo /\ status_reads (ln_fields ln) code (octets (words p r)) /\
    because p md5 find cnt k r /\ verdict p md5 find cnt k code.
Proof.
  intros p md5 find cnt ls ls' k lines Hc Hb HS E (l & D). unfold login_lines in E. rewrite D in E. cbv zeta in E.
  destruct (login_check md5 l (find (login_key l))) as [code0 l1] eqn:LC. injection E as <-. set (code := if (code0 =? 0) && _ then _ else _).
  pose proof (named_key _ _ _ D) as K.
  assert (F : fst (login_check md5 l (find (login_key l))) = code0) by (rewrite LC; reflexivity).
  assert (V : verdict p md5 find cnt k code).
  { unfold code. destruct (code0 =? 0) eqn:Z0; cbn [andb].
    - apply Z.eqb_eq in Z0. pose proof (proj1 (login_genuine p md5 find k l Hc Hb D)) as G. rewrite F in G. destruct (G Z0) as (a & Fa & Ga). rewrite K in Fa.
      unfold full. rewrite Fa. destruct (_ <=? _) eqn:M.
      + destruct p; apply (V_many _ _ _ _ _ a Fa Ga); lia.
      + rewrite Z0. apply (V_ok _ _ _ _ _ a Fa Ga). lia.
    - rewrite <- F. apply check_verdict; auto. rewrite F. lia. }
  assert (W : exists r, because p md5 find cnt k r /\ login_names p code = octets (words p r)).
  { clearbody code. clear - V. destruct V as [F|a F N M|a F M NG|a F G M|a F G M].
    - exists Unknown. unfold because. rewrite F. split; [reflexivity|]. destruct p; reflexivity.
    - exists OtherVersion. unfold because. rewrite F. split; [auto|]. destruct p; [reflexivity|congruence|reflexivity].
    - exists WrongSecret. unfold because. rewrite F. split; [auto|]. destruct p; reflexivity.
    - exists TooMany. unfold because. rewrite F. split; [auto|]. destruct p; reflexivity.
    - exists Accepted. unfold because. rewrite F. split; [auto|]. destruct p; reflexivity. }
  destruct W as (r & B & W). pose proof (verdict_range _ _ _ _ _ _ V) as RG.
  eexists (_ :: _ :: check_lines md5 l (find (login_key l))), _, r, code. split; [cbn [app]; reflexivity|]. split; [reflexivity|]. split; [|auto].
  cbn [ln_fields]. unfold status_reads. rewrite value_of_session by (auto; apply not_session; reflexivity).
  assert (X : value_of "status"%string (answer_Log md5 (login_names p) l1 code) = Some (FS (status_String (login_names p) code))).
  { assert (L1 : exists l', decode_login p k = Ok l' /\ match p, l1 with P_CMPP, LCmpp _ | P_SGIP, LSgip _ | P_SMGP, LSmgp _ => True | _, _ => False end).
    { exists l. split; [exact D|]. clear - D LC. destruct p; cbn [decode_login] in D; apply bind_ok in D as (x & D & E); injection E as <-; cbn [login_check] in LC.
      - destruct (Connect_Check _ _ _) in LC. injection LC as _ <-. exact Logic.I.
      - injection LC as _ <-. exact Logic.I.
      - destruct (Login_Check _ _ _) in LC. injection LC as _ <-. exact Logic.I. }
    destruct L1 as (_ & _ & L1). clearbody code. clear - L1 RG. destruct p, l1; try contradiction; cbn [answer_Log].
    - unfold ConnectResp_Log, head_Log. cbn. do 3 f_equal. unfold u8. rewrite ?Z.mod_small by lia. reflexivity.
    - unfold srsp_Log, shead_Log, Bind_ToResponse. cbn [sr_h sh_seq sr_status]. destruct (sh_seq _) as [[a1 b1] c1]. cbn. do 3 f_equal. unfold u8. rewrite ?Z.mod_small by lia. reflexivity.
    - reflexivity. }
  rewrite X. eexists. split; [reflexivity|]. rewrite <- W. apply status_String_reads. lia.
Qed.

(** Each answer to a submit in a run of the server is logged with its number and the words of the
    protocol for it: accepted, or refused because there is too much traffic. *)
Theorem C104_submit : forall pr now es c k x code b ver r o ls lines, segs_ok es -> ids_ok es -> run pr (opened now) es = Ok c ->
  In (OOut (KSubmit k x code) b) (sc_log c) -> decode_submit pr ver k = Ok r -> session_fields ls ->
  submit_lines pr ver (submit_names (pr_p pr)) ls None (Some (submit_reply r code o)) k = Ok lines ->
  exists front ln t, lines = front ++ [ln] /\ submit_words (pr_p pr) code = Some t /\ status_reads (ln_fields ln) code (octets t).
Proof.
  intros pr now es c k x code b ver r o ls lines Hs Hi E L D HS EL.
  destruct (C51_answers pr now es c Hs Hi E) as (_ & A & _). destruct (A _ _ _ _ L) as [_ R1]. clear A.
  unfold submit_lines in EL. rewrite D in EL. apply bind_ok in EL as (f & _ & EL). injection EL as <-.
  assert (T : exists t, submit_words (pr_p pr) code = Some t /\ submit_names (pr_p pr) code = octets t /\ 0 <= code < 256).
  { unfold result_ok in R1. destruct (pr_p pr); destruct x; [subst code|destruct R1; subst code|subst code|destruct R1; subst code|subst code|destruct R1; subst code]; eexists; split; reflexivity || (split; [reflexivity|lia]). }
  destruct T as (t & T1 & T2 & T3).
  eexists [_; _], _, t. split; [reflexivity|]. split; [exact T1|]. cbn [ln_fields]. unfold status_reads. rewrite value_of_session by (auto; apply not_session; reflexivity).
  assert (X : value_of "status"%string (reply_Log (submit_names (pr_p pr)) (submit_reply r code o)) = Some (FS (status_String (submit_names (pr_p pr)) code))).
  { clear - T3. destruct r; cbn [submit_reply reply_Log]; [reflexivity| |reflexivity].
    unfold srsp_Log, shead_Log, SSubmit_ToResponse. cbn [sr_h sh_seq sr_status]. destruct (sh_seq _) as [[a1 b1] c1]. cbn. do 3 f_equal. unfold u8. rewrite Z.mod_small by lia. reflexivity. }
  rewrite X. eexists. split; [reflexivity|]. rewrite <- T2. apply status_String_reads. lia.
Qed.
(** REFUTED for SGIP reports: the state of a message (0 sent, 1 waiting, 2 failed) is explained with
    the results of commands: a message that waits is logged as an illegal login, one that failed as a
    login twice in one connection. *)
Definition state_words (s : Z) : option string :=
  if s =? 1 then Some "非法登录, 如登录名、口令出错、登录名与口令不符等。"%string
  else if s =? 2 then Some "重复登录, 如在同一TCP/IP连接中连续两次以上请求登录。"%string else None.
Theorem C104_refuted_state : forall cid f r fs, SReport_Decode cid f = Ok r -> SReport_Log state_names r = Ok fs -> (st_State r = 1 \/ st_State r = 2) ->
  exists t, state_words (st_State r) = Some t /\ status_reads fs (st_State r) (octets t) /\ octets t = login_names P_SGIP (st_State r).
Proof.
  intros cid f r fs _ E H. unfold SReport_Log in E. apply bind_ok in E as (b & _ & E). apply bind_ok in E as (c & _ & E). apply bind_ok in E as (a & _ & E). injection E as <-.
  assert (X : exists t, state_words (st_State r) = Some t /\ state_names (st_State r) = octets t /\ octets t = login_names P_SGIP (st_State r)) by (destruct H as [->| ->]; eexists; repeat split; reflexivity).
  destruct X as (t & X1 & X2 & X3). exists t. split; [exact X1|]. split; [|exact X3]. unfold status_reads, shead_Log. destruct (sh_seq _) as [[a1 b1] c1]. cbn [app value_of String.eqb Ascii.eqb Bool.eqb].
  eexists. split; [reflexivity|]. rewrite <- X2. apply status_String_reads. lia.
Qed.
(** REFUTED for versions: a login whose major version is below its account's is logged as refused
    for too high a version. *)
Theorem C104_refuted_low : forall p md5 find cnt ls ls' k lines a, p <> P_SGIP -> pk_cmd k = 1 -> bytes_ok (pk_body k) -> session_fields ls' ->
  login_lines p md5 (login_names p) find ls ls' None (full find cnt (named p k)) true k = Ok lines -> (exists l, decode_login p k = Ok l) ->
  find (named p k) = Some a -> major (version_in p k) < major (ac_Version a) ->
  exists front ln code, lines = front ++ [ln] /\ status_reads (ln_fields ln) code (octets "版本太高").
Proof.
  intros p md5 find cnt ls ls' k lines a N Hc Hb HS E D F M.
  destruct (C104_login_partial p md5 find cnt ls ls' k lines Hc Hb HS E D) as (front & ln & r & code & E1 & _ & SR & B & _).
  exists front, ln, code. split; [exact E1|].
  assert (NG : ~ genuine p md5 find k a) by (intros (_ & G); destruct p; [|congruence|]; destruct G as (_ & G & _); unfold major, version_in in M; rewrite ?G in M; lia).
  assert (X : r = OtherVersion).
  { unfold because in B. rewrite F in B. destruct r; try reflexivity; exfalso; [discriminate B|destruct B as [B _]; specialize (B N); lia|destruct B; auto|destruct B; auto]. }
  subst r. destruct p; [exact SR|congruence|exact SR].
Qed.
Print Assumptions C104_number.
Print Assumptions C104_words.
Print Assumptions C104_login_partial.
Print Assumptions C104_submit.
Print Assumptions C104_refuted_state.
Print Assumptions C104_refuted_low.

(** ** Cases *)
(** The status logged for a login with the given name, secret and version while [cnt] connections
    are logged in (the accounts of [end_pr]). *)
Definition st_login (p : proto) (cnt : Z) (id secret : bytes) (v : Z) : option fval :=
  match DecodeAndCheckHeader p true (wy_login p id secret v) with
  | Ok (FPass k _) =>
    match login_lines p end_md5 (login_names p) (pr_find (end_pr p) 0) [] [] None (full (pr_find (end_pr p) 0) (fun _ => cnt) (named p k)) true k with
    | Ok ls => value_of "status"%string (ln_fields (last ls (Line LDebug [])))
    | _ => None
    end
  | _ => None
  end.
Example C104_case :
  map (fun p => [st_login p 0 (wy_other p) [115;51] 48; st_login p 0 (end_id p) [115;51] 64; st_login p 0 (end_id p) [115;52] 48;
                 st_login p 1 (end_id p) [115;51] 48; st_login p 0 (end_id p) [115;51] 48; st_login p 0 (end_id p) [115;51] 32]) [P_CMPP; P_SMGP] =
  [map (fun s => Some (FS (octets s))) ["2: 非法源地址"; "4: 版本太高"; "3: 认证错"; "5: 其他错误"; "0: 成功"; "4: 版本太高"];
   map (fun s => Some (FS (octets s))) ["69: 非法SP企业代码（SPID）"; "22: 版本太高"; "21: 认证错"; "2: 超过最大连接数"; "0: 成功"; "22: 版本太高"]]%string.
Proof. vm_compute. reflexivity. Qed.
Example C104_case_sgip :
  [st_login P_SGIP 0 (wy_other P_SGIP) [115;51] 48; st_login P_SGIP 0 (end_id P_SGIP) [115;52] 48; st_login P_SGIP 1 (end_id P_SGIP) [115;51] 48] =
  map (fun s => Some (FS (octets s))) ["1: 非法登录, 如登录名、口令出错、登录名与口令不符等。"; "1: 非法登录, 如登录名、口令出错、登录名与口令不符等。"; "3: 连接过多, 指单个节点要求同时建立的连接数过多。"]%string /\
  (fs <- SReport_Log state_names (sgip_NewReport [49] [3000; 5; 6] 2 27 (1, 2, 3)) ;; Ok (value_of "status"%string fs)) = Ok (Some (FS (octets "2: 重复登录, 如在同一TCP/IP连接中连续两次以上请求登录。"))) /\
  submit_names P_SGIP 12 = [] /\ explained ASubmit P_SGIP 12 = false /\ submit_names P_CMPP 13 <> [] /\ submit_names P_CMPP 14 = [].
Proof. vm_compute. repeat split; discriminate. Qed.
(** The statuses logged for the submits answered in [es_submit] (PropAnswers): one accepted. *)
Definition st_submits (c : sconn) : list (option fval) :=
  flat_map (fun o => match o with
    | OOut (KSubmit k x code) b =>
      match decode_submit pr_one (se_ver (sc_sess c)) k with
      | Ok r => match submit_lines pr_one (se_ver (sc_sess c)) (submit_names P_CMPP) [] None (Some (submit_reply r code (end_orc 0))) k with
                | Ok ls => [value_of "status"%string (ln_fields (last ls (Line LDebug [])))] | _ => [] end
      | _ => [] end
    | _ => [] end) (sc_log c).
Example C104_case_submit : ids_ok es_submit /\ pr_p pr_one = P_CMPP /\
  match run pr_one (opened 0) es_submit with Ok c => st_submits c | _ => [] end = [Some (FS (octets "0: 正确"))].
Proof. split; [exact (proj1 C51_env_ex)|]. split; [reflexivity|]. vm_compute. reflexivity. Qed.

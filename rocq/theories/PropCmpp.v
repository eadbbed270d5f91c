(** * PropCmpp: properties C29-C32 (CMPP packets). *)
From Verif Require Import Base SpecText UtilsModel UtilsProofs UtfProofs OptionsModel SpecWire WireProofs CmppModel SpecCmpp
  CmppProofs CmppSubmitProofs CmppBuildProofs.

Lemma UnpackHead_head len cmd seq rest :
  0 <= len < 2 ^ 32 -> 0 <= cmd < 2 ^ 32 -> 0 <= seq < 2 ^ 32 ->
  UnpackHead (render (head len cmd seq) ++ rest) = Ok (len, cmd, seq).
Proof.
  intros H1 H2 H3. unfold UnpackHead. rewrite zlen_app, zlen_render. cbn [head widths width].
  replace (12 <=? _) with true by (pose proof (zlen_nonneg rest); lia).
  set (body := render (head len cmd seq) ++ rest). assert (Hb : body = [] ++ body) by reflexivity.
  unfold body at 2 in Hb. unfold head, render in Hb. cbn [map concat render1] in Hb. clearbody body.
  rewrite <- !app_assoc in Hb.
  rstep Hb. rstep Hb. rstep Hb. reflexivity.
Qed.
Lemma TrimStr_cut w s : TrimStr (fit w s) = TrimStr (firstn w s).
Proof.
  unfold fit. generalize (w - length s)%nat as n. generalize (firstn w s) as l. clear.
  induction l as [|b t IH]; intros n; cbn.
  - destruct n; reflexivity.
  - destruct (b =? 0); auto. rewrite IH. reflexivity.
Qed.

(** A sending side frame [f] is the head followed by [body]; the receiving side splits it
    there (see C47, C61), so [Decode] is applied to [body]. *)

(** ** C29 CMPP login request on the wire *)
Theorem C29_connect_wire : forall md5 ac seq ts tsn,
  (forall x, zlen (md5 x) = 16) -> ac_wf ac -> 0 <= seq < 2 ^ 32 -> 0 <= tsn < 2 ^ 32 ->
  let c := NewConnect md5 ac seq ts tsn in
  let hd := render [U 4 39; U 4 1; U 4 seq] in
  let body := render [T 6 (ac_ClientId ac);
                      R (md5 (ac_ClientId ac ++ repeat 0 9 ++ ac_SharedSecret ac ++ ts));
                      U 1 (ac_Version ac); U 4 tsn] in
  Connect_Encode c = Ok (hd ++ body) /\ zlen (hd ++ body) = 39 /\
  UnpackHead (hd ++ body) = Ok (39, 1, seq) /\
  exists d, Connect_Decode seq body = Ok d /\ cn_h d = CHead 39 1 seq /\
    cn_sourceAddr d = TrimStr (firstn 6 (ac_ClientId ac)) /\
    (fits 6 (ac_ClientId ac) -> cn_sourceAddr d = ac_ClientId ac) /\
    cn_auth d = md5 (ac_ClientId ac ++ repeat 0 9 ++ ac_SharedSecret ac ++ ts) /\
    cn_version d = ac_Version ac /\ cn_timestamp d = tsn.
Proof.
  intros md5 ac seq ts tsn Hmd (A1 & _) Hs Ht c hd body.
  assert (W : connect_wf c).
  { unfold connect_wf, c, NewConnect. cbn. repeat split; auto; try lia; apply A1. }
  split; [|split; [|split]].
  - rewrite Connect_Encode_ok by auto. unfold connect_layout. rewrite render_app. reflexivity.
  - unfold hd, body. rewrite zlen_app, !zlen_render. cbn [widths width]. rewrite Hmd. reflexivity.
  - unfold hd. apply (UnpackHead_head 39 1 seq); lia.
  - unfold body, Connect_Decode. 
    set (b := render _). assert (Hb : b = [] ++ b) by reflexivity.
    unfold b at 2 in Hb. unfold render in Hb. cbn [map concat render1] in Hb. clearbody b.
    set (m := md5 _) in *. assert (Hm : zlen m = 16) by apply Hmd. clearbody m.
    rstep Hb. rstep Hb. rstep Hb. rstep Hb.
    eexists. split; [reflexivity|]. cbn [cn_h cn_sourceAddr cn_auth cn_version cn_timestamp].
    repeat split; auto.
    + apply TrimStr_cut.
    + intros. apply TrimStr_fits; auto.
Qed.
Definition ac_demo : authconf :=
  AuthConf [67;77;80;80] [57;48;49;48;48;49] [] [115;101;99] 48 1 [57;53] [77;49] 5 2 0 [] [48;50] [49;48] [] [] 0 4 16 100.
Example C29_case :
  Connect_Encode (NewConnect (fun _ => repeat 7 16) ac_demo 9 [48;50;49;48] 210)
  = Ok ([0;0;0;39; 0;0;0;1; 0;0;0;9; 57;48;49;48;48;49] ++ repeat 7 16 ++ [48; 0;0;0;210]).
Proof. vm_compute. reflexivity. Qed.
Print Assumptions C29_connect_wire.

(** ** C30 CMPP login authentication *)

(** The 10-digit timestamp with a given value. *)
Definition ten_digits (ts : bytes) (v : Z) : Prop := length ts = 10%nat /\ Forall is_digit ts /\ dec_value ts = v.

Lemma TimeStamp2Str_ten t : 0 <= t < 2 ^ 32 -> ten_digits (TimeStamp2Str t) t.
Proof. intros H. pose proof (TimeStamp2Str_spec t H). unfold ten_digits, zlen in *. intuition lia. Qed.
Lemma ten_digits_unique ts t : 0 <= t < 2 ^ 32 -> ten_digits ts t -> ts = TimeStamp2Str t.
Proof.
  intros H (A & B & C). destruct (TimeStamp2Str_ten t H) as (A' & B' & C').
  apply dec_value_inj; auto; congruence.
Qed.

Theorem C30_check : forall md5 c ac, 0 <= cn_timestamp c < 2 ^ 32 ->
  forall code c', Connect_Check md5 c ac = (code, c') ->
  (code = 0 <-> exists a ts, ac = Some a /\ Z.land (cn_version c) 240 = Z.land (ac_Version a) 240 /\
      ten_digits ts (cn_timestamp c) /\
      cn_auth c = md5 (ac_ClientId a ++ repeat 0 9 ++ ac_SharedSecret a ++ ts)) /\
  (code = 2 <-> ac = None) /\
  (code = 4 <-> exists a, ac = Some a /\ Z.land (cn_version c) 240 <> Z.land (ac_Version a) 240) /\
  (code = 3 <-> exists a, ac = Some a /\ Z.land (cn_version c) 240 = Z.land (ac_Version a) 240 /\
      forall ts, ten_digits ts (cn_timestamp c) ->
        cn_auth c <> md5 (ac_ClientId a ++ repeat 0 9 ++ ac_SharedSecret a ++ ts)) /\
  (code = 0 \/ code = 2 \/ code = 3 \/ code = 4) /\
  (code = 0 -> exists a, ac = Some a /\ cn_secret c' = ac_SharedSecret a) /\
  cn_h c' = cn_h c /\ cn_sourceAddr c' = cn_sourceAddr c /\ cn_version c' = cn_version c.
Proof.
  intros md5 c ac Ht code c' E. pose proof (TimeStamp2Str_ten _ Ht) as T10.
  unfold Connect_Check in E. destruct ac as [a|].
  - unfold major_match in E. destruct (Z.land (cn_version c) 240 =? Z.land (ac_Version a) 240) eqn:Ev; cbn [negb] in E.
    + unfold beqb in E. destruct (list_eq_dec _ _ _) as [Ea|Ea]; injection E as <- <-.
      * split; [split; [intros _|lia]|].
        { exists a, (TimeStamp2Str (cn_timestamp c)). repeat split; auto; try lia; apply T10. }
        split; [split; [lia|discriminate]|]. split; [split; [lia|]|].
        { intros (a' & [= <-] & H). lia. }
        split; [split; [lia|]|].
        { intros (a' & [= <-] & _ & H). exfalso. apply (H _ T10). exact Ea. }
        split; [lia|]. split; [eauto|]. auto.
      * split; [split; [lia|]|].
        { intros (a' & ts & [= <-] & _ & Hts & H). exfalso. apply Ea. rewrite H.
          rewrite (ten_digits_unique ts _ Ht Hts). reflexivity. }
        split; [split; [lia|discriminate]|]. split; [split; [lia|]|].
        { intros (a' & [= <-] & H). lia. }
        split; [split; [intros _|lia]|].
        { exists a. split; [auto|]. split; [lia|]. intros ts Hts H. apply Ea. rewrite H.
          rewrite (ten_digits_unique ts _ Ht Hts). reflexivity. }
        split; [lia|]. split; [lia|]. auto.
    + injection E as <- <-. split; [split; [lia|]|].
      { intros (a' & ts & [= <-] & H & _). lia. }
      split; [split; [lia|discriminate]|]. split; [split; [intros _|lia]|].
      { exists a. split; auto. lia. }
      split; [split; [lia|]|].
      { intros (a' & [= <-] & H & _). lia. }
      split; [lia|]. split; [lia|]. auto.
  - injection E as <- <-. split; [split; [lia|]|].
    { intros (a' & ts & [=] & _). }
    split; [split; auto|]. split; [split; [lia|]|].
    { intros (a' & [=] & _). }
    split; [split; [lia|]|].
    { intros (a' & [=] & _). }
    split; [lia|]. split; [lia|]. auto.
Qed.
(** What the client sends for the same account data is accepted, whatever the clock says. *)
Theorem C30_client_accepted : forall md5 ac seq ts tsn d,
  (forall x, zlen (md5 x) = 16) -> ac_wf ac -> 0 <= seq < 2 ^ 32 -> 0 <= tsn < 2 ^ 32 -> ten_digits ts tsn ->
  (f <- Connect_Encode (NewConnect md5 ac seq ts tsn) ;;
   b <- slice f 12 39 ;; Connect_Decode seq b) = Ok d ->
  fst (Connect_Check md5 d (Some ac)) = 0.
Proof.
  intros md5 ac seq ts tsn d Hmd Hac Hs Ht H10 E.
  destruct (C29_connect_wire md5 ac seq ts tsn Hmd Hac Hs Ht) as (E1 & Hz & _ & d' & E2 & _ & _ & _ & D1 & D2 & D3).
  rewrite E1 in E. cbn [bind] in E. set (hd := render [U 4 39; U 4 1; U 4 seq]) in *.
  assert (Hh : zlen hd = 12) by (unfold hd; rewrite zlen_render; reflexivity).
  rewrite (slice_at _ hd (render [T 6 (ac_ClientId ac);
                      R (md5 (ac_ClientId ac ++ repeat 0 9 ++ ac_SharedSecret ac ++ ts));
                      U 1 (ac_Version ac); U 4 tsn]) []) in E.
  2:{ rewrite app_nil_r. reflexivity. } 2:{ auto. } 2:{ rewrite zlen_app in Hz. lia. }
  cbn [bind] in E. rewrite E2 in E. injection E as <-.
  destruct (Connect_Check md5 d' (Some ac)) as [code c'] eqn:Ec. cbn [fst].
  destruct (C30_check md5 d' (Some ac) ltac:(rewrite D3; auto) code c' Ec) as [[_ H] _].
  apply H. exists ac, ts. rewrite D1, D2, D3. auto.
Qed.
Example C30_case : let md5 := fun x => firstn 16 (rev x ++ repeat 0 16) in
  fst (Connect_Check md5 (NewConnect md5 ac_demo 9 (TimeStamp2Str 1116120000) 1116120000) (Some ac_demo)) = 0
  /\ fst (Connect_Check md5 (NewConnect md5 ac_demo 9 (TimeStamp2Str 1116120000) 1116120001) (Some ac_demo)) = 3.
Proof. vm_compute. auto. Qed.
Print Assumptions C30_check.
Print Assumptions C30_client_accepted.

(** Which versions the statements below mean by [is_v3]: the bytes 0x30 to 0x3f, the
    specification's own reading of the version byte. *)
Theorem C32_major_version : forall v, 0 <= v < 256 -> (is_v3 v = true <-> v3 v) /\ (is_v3 v = true <-> 48 <= v < 64).
Proof.
  intros v H. pose proof (is_v3_iff v H) as X. split; [exact X|]. rewrite X. unfold v3. rewrite Z.shiftr_div_pow2 by lia. change (2 ^ 4) with 16.
  rewrite (Z.mod_small (v / 16)) by (split; [apply Z.div_pos; lia|apply Z.div_lt_upper_bound; lia]).
  pose proof (Z.div_mod v 16 ltac:(lia)). pose proof (Z.mod_pos_bound v 16 ltac:(lia)). lia.
Qed.
Print Assumptions C32_major_version.
Example C32_versions : is_v3 48 = true /\ is_v3 33 = false /\ is_v3 64 = false /\ is_v3 32 = false.
Proof. vm_compute. auto. Qed.

(** ** C31 CMPP login response on the wire *)
Theorem C31_connect_resp_wire : forall md5 c code,
  (forall x, zlen (md5 x) = 16) -> is_byte (cn_version c) -> 0 <= h_seq (cn_h c) < 2 ^ 32 -> 0 <= code < 256 ->
  let r := Connect_ToResponse md5 c code in
  let len := if is_v3 (cn_version c) then 33 else 30 in
  let auth := if code =? 0
    then md5 ((if is_v3 (cn_version c) then [0;0;0;0] else [0]) ++ cn_sourceAddr c ++ cn_secret c)
    else repeat 0 16 in
  let hd := render [U 4 len; U 4 2147483649; U 4 (h_seq (cn_h c))] in
  let body := render [U (if is_v3 (cn_version c) then 4 else 1) code; R auth; U 1 (cn_version c)] in
  ConnectResp_Encode r = Ok (hd ++ body) /\ zlen (hd ++ body) = len /\
  UnpackHead (hd ++ body) = Ok (len, 2147483649, h_seq (cn_h c)) /\
  ConnectResp_Decode (cn_version c) (h_seq (cn_h c)) body =
    Ok (ConnectResp (CHead len 2147483649 (h_seq (cn_h c))) code auth (cn_version c)).
Proof.
  intros md5 c code Hmd Hv Hs Hcode r len auth hd body.
  assert (Hu : u8 code = code) by (apply u8_small; lia).
  assert (Er : r = ConnectResp (CHead len 2147483649 (h_seq (cn_h c))) code auth (cn_version c)).
  { unfold r, Connect_ToResponse, auth, len. rewrite Hu. f_equal.
    destruct (code =? 0) eqn:E; [|reflexivity]. replace code with 0 by lia. reflexivity. }
  assert (W : connect_resp_wf r).
  { rewrite Er. unfold connect_resp_wf. cbn. repeat split; auto; try lia; try apply Hv.
    unfold auth. destruct (code =? 0); [apply Hmd|reflexivity]. }
  split; [|split; [|split]].
  - rewrite ConnectResp_Encode_ok by auto. rewrite Er. unfold connect_resp_layout. cbn [cr_h cr_version cr_status cr_auth h_seq].
    rewrite render_app. reflexivity.
  - unfold hd, body. rewrite zlen_app, !zlen_render. cbn [widths width].
    assert (Hau : zlen auth = 16) by (unfold auth; destruct (code =? 0); [apply Hmd|reflexivity]).
    unfold bytes in *. rewrite Hau. unfold len. destruct (is_v3 _); reflexivity.
  - unfold hd. apply UnpackHead_head; try lia. unfold len. destruct (is_v3 _); lia.
  - pose proof (ConnectResp_Decode_ok r (h_seq (cn_h c)) W) as D. rewrite Er in D.
    unfold connect_resp_layout in D. cbn [cr_h cr_version cr_status cr_auth h_seq h_len h_cmd head app skipn] in D.
    exact D.
Qed.
Example C31_case : ConnectResp_Encode (Connect_ToResponse (fun _ => repeat 7 16)
   (Connect (CHead 39 1 5) [65] [] 33 0 []) 3) = Ok ([0;0;0;30; 128;0;0;1; 0;0;0;5; 3] ++ repeat 0 16 ++ [33]).
Proof. vm_compute. reflexivity. Qed.
Print Assumptions C31_connect_resp_wire.

(** ** C32 CMPP submit wire layout *)

(** The body of part [b] of a submit: [nr, ml, fu, ft, texts] come from options and account
    (C26); [three] = 3.x. *)
Definition submit_table (three : bool) (total num nr ml fu ft udhi fmt : Z)
  (serviceId feeTerm src feeType feeCode valid atTime srcId linkID : bytes) (phones : list bytes) (b : bytes) : list field :=
  [U 8 0; U 1 total; U 1 num; U 1 nr; U 1 ml; T 10 serviceId; U 1 fu]
  ++ (if three then [T 32 feeTerm; U 1 ft] else [T 21 feeTerm])
  ++ [U 1 0; U 1 udhi; U 1 fmt; T 6 src; T 2 feeType; T 6 feeCode; T 17 valid; T 17 atTime; T 21 srcId; U 1 (zlen phones)]
  ++ map (T (if three then 32%nat else 21%nat)) phones
  ++ (if three then [U 1 0] else [])
  ++ [U 1 (zlen b); R b]
  ++ (if three then [T 20 linkID] else [U 8 0]).

Theorem C32_submit_layout : forall ac phones content seq ops vd g nxt,
  ac_wf ac -> ops_wf ops -> zlen phones <= 255 -> 0 <= seq < 2 ^ 32 -> (forall i, 0 <= nxt i < 2 ^ 32) ->
  exists msgs parts, NewSubmit ac phones content seq ops vd g nxt = Ok msgs /\
    MsgSlices g (MsgFmt content) content = Ok parts /\ length msgs = length parts /\
    forall k s b, nth_error msgs k = Some s -> nth_error parts k = Some b ->
      let three := is_v3 (ac_Version ac) in
      let o := LoadMtOptions ops in
      let n := length parts in
      let body := render (submit_table three (u8 (Z.of_nat n)) (u8 (Z.of_nat k + 1))
        (opt_num (o_NeedReport o) (ac_NeedReport ac)) (opt_num (o_MsgLevel o) (ac_DefaultMsgLevel ac))
        (opt_num (o_FeeUsertype o) (ac_FeeUserType ac)) (opt_num (o_FeeTerminalType o) (ac_FeeTerminalType ac))
        (if (n =? 1)%nat then 0 else 1) (MsgFmt content) (opt_txt (o_ServiceId o) (ac_ServiceId ac))
        (opt_txt (o_FeeTerminalId o) (ac_FeeTerminalId ac)) (ac_SmsDisplayNo ac) (opt_txt (o_FeeType o) (ac_FeeType ac))
        (opt_txt (o_FeeCode o) (ac_FeeCode ac)) (opt_txt (o_ValidTime o) vd) (o_AtTime o)
        (ac_SmsDisplayNo ac ++ o_SpSubNo o) (opt_txt (o_LinkID o) (ac_LinkId ac)) phones b) in
      let len := (if three then 163 else 138) + (if three then 32 else 21) * zlen phones + zlen b in
      Submit_Encode s = Ok (render [U 4 len; U 4 4; U 4 (if (k =? 0)%nat then seq else nxt (Z.of_nat k))] ++ body) /\
      12 + zlen body = len /\ h_len (sb_h s) = len.
Proof.
  intros ac phones content seq ops vd g nxt Hac Hops Hph Hs Hn.
  destruct (NewSubmit_ok ac phones content seq ops vd g nxt Hac Hops Hph Hs Hn) as (msgs & parts & E1 & E2 & EL & _ & HP).
  exists msgs, parts. split; [auto|]. split; [auto|]. split; [auto|].
  intros k s b Hk Hb three o n body len.
  destruct (HP k s b Hk Hb) as (W & B & P).
  destruct B as (B1 & B2 & B3 & B4 & B5 & B6 & B7 & B8 & B9 & B10 & B11 & B12 & B13 & B14 & B15 & B16 & B17 & B18 & B19).
  destruct P as (P1 & P2 & P3 & P4 & P5 & P6 & P7).
  assert (Hids : zlen (sb_termIds s) = (if three then 32 else 21) * zlen phones).
  { rewrite B5, zlen_render. unfold zlen, three. clear. induction phones; cbn [map widths length]; [lia|].
    rewrite IHphones. destruct (is_v3 _); cbn [width]; lia. }
  assert (Hl : h_len (sb_h s) = len).
  { destruct W as (_ & _ & W & _). rewrite W, B1, P1, Hids. reflexivity. }
  assert (Hb' : render (submit_body (is_v3 (sb_version s)) s) = body).
  { unfold body, submit_body, submit_table. rewrite B1. fold three.
    rewrite P5, P6, P7, P2, P1, B2, B3, B4, B5, B6, B7, B8, B9, B10, B11, B12, B13, B14, B15, B16, B17, B18, B19.
    fold three. rewrite !render_app. destruct three; cbn [app];
      unfold render; cbn [map concat render1]; rewrite <- ?app_assoc; cbn [app]; reflexivity. }
  split; [|split; [|exact Hl]].
  - rewrite Submit_Encode_ok by auto. rewrite render_app, Hb', Hl, P4. reflexivity.
  - rewrite <- Hb'. rewrite zlen_render. unfold submit_body. rewrite B1. fold three.
    unfold len. rewrite <- Hids, <- P1. destruct three; cbn [app widths width]; lia.
Qed.
(** More than 255 numbers: building panics. *)
Theorem C32_too_many_numbers : forall ac phones content seq ops vd g nxt, 255 < zlen phones ->
  NewSubmit ac phones content seq ops vd g nxt = Panic.
Proof. exact NewSubmit_panics. Qed.
Example C32_case :
  (ms <- NewSubmit ac_demo [[49;51;56]; [49;51;57]] [72;105] 9 [OServiceId (repeat 66 12)] [86] 1 (fun i => i) ;;
   s <- at_ ms 0 ;; Submit_Encode s)
  = Ok ([0;0;0;229; 0;0;0;4; 0;0;0;9] ++ repeat 0 8 ++ [1;1;1;5] ++ repeat 66 10 ++ [2] ++ repeat 0 32 ++ [0]
        ++ [0;0;0] ++ [57;53;0;0;0;0] ++ [48;50] ++ [49;48;0;0;0;0] ++ (86 :: repeat 0 16) ++ repeat 0 17
        ++ ([57;53] ++ repeat 0 19) ++ [2] ++ ([49;51;56] ++ repeat 0 29) ++ ([49;51;57] ++ repeat 0 29) ++ [0]
        ++ [2;72;105] ++ repeat 0 20).
Proof. vm_compute. reflexivity. Qed.
Print Assumptions C32_submit_layout.
Print Assumptions C32_too_many_numbers.

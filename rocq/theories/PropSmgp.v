(** * PropSmgp: C42 C43 C44 (SMGP packets). *)
From Verif Require Import Base SpecText UtilsModel UtilsProofs UtfProofs OptionsModel TlvModel TlvProofs PropTlv SpecWire WireProofs
  CmppModel CmppProofs CmppBuildProofs PropCmpp PropCmpp2 PropSgip SmgpModel SpecSmgp SmgpProofs.

(** ** C42 SMGP login *)

(** Layout, and what the server decodes: everything as sent; the client id only if it has
    exactly 8 characters, else with NULs behind it. *)
Theorem C42_login_wire_partial : forall md5 ac seq ts tsn,
  (forall x, zlen (md5 x) = 16) -> is_byte (ac_Version ac) -> 0 <= seq < 2 ^ 32 -> 0 <= tsn < 2 ^ 32 ->
  zlen (ac_ClientId ac) <= 8 ->
  let digest := md5 (ac_ClientId ac ++ repeat 0 7 ++ ac_SharedSecret ac ++ ts) in
  Login_Encode (NewLogin md5 ac seq ts tsn) =
    Ok (render [U 4 42; U 4 1; U 4 seq; T 8 (ac_ClientId ac); R digest; U 1 2; U 4 tsn; U 1 (ac_Version ac)]) /\
  exists d, over_wire (Login_Encode (NewLogin md5 ac seq ts tsn)) (Login_Decode seq) = Ok d /\
    lg_h d = CHead 42 1 seq /\ lg_auth d = digest /\ lg_mode d = 2 /\ lg_timestamp d = tsn /\ lg_version d = ac_Version ac /\
    lg_clientID d = ac_ClientId ac ++ repeat 0 (8 - length (ac_ClientId ac)) /\
    (zlen (ac_ClientId ac) = 8 -> lg_clientID d = ac_ClientId ac).
Proof.
  intros md5 ac seq ts tsn Hmd Hv Hs Ht Hid digest.
  set (l := NewLogin md5 ac seq ts tsn).
  assert (W : login_wf l).
  { unfold login_wf, l, NewLogin. cbn [lg_h lg_auth lg_mode lg_timestamp lg_version h_len h_cmd h_seq].
    split; [reflexivity|]. split; [reflexivity|]. split; [exact Hs|]. split; [apply Hmd|]. split; [unfold is_byte; lia|].
    split; [exact Ht|exact Hv]. }
  split.
  - rewrite Login_Encode_ok by auto. rewrite render_app. reflexivity.
  - rewrite Login_Encode_ok by auto. rewrite over_wire_ok, Login_Decode_ok by auto. eexists. split; [reflexivity|].
    cbn [lg_h lg_auth lg_mode lg_timestamp lg_version lg_clientID l NewLogin].
    repeat (split; [reflexivity|]). unfold zlen in Hid. split.
    + apply fit_short. lia.
    + intros H. apply fit_exact. unfold zlen in H. lia.
Qed.

(** The server's check of a decoded login against an account. *)
Theorem C42_check : forall md5 l ac, 0 <= lg_timestamp l < 2 ^ 32 ->
  forall code l', Login_Check md5 l ac = (code, l') ->
  (code = 0 <-> exists a ts, ac = Some a /\ Z.land (lg_version l) 240 = Z.land (ac_Version a) 240 /\
      ten_digits ts (lg_timestamp l) /\
      lg_auth l = md5 (ac_ClientId a ++ repeat 0 7 ++ ac_SharedSecret a ++ ts)) /\
  (code = 69 <-> ac = None) /\
  (code = 22 <-> exists a, ac = Some a /\ Z.land (lg_version l) 240 <> Z.land (ac_Version a) 240) /\
  (code = 21 <-> exists a, ac = Some a /\ Z.land (lg_version l) 240 = Z.land (ac_Version a) 240 /\
      forall ts, ten_digits ts (lg_timestamp l) ->
        lg_auth l <> md5 (ac_ClientId a ++ repeat 0 7 ++ ac_SharedSecret a ++ ts)) /\
  (code = 0 \/ code = 69 \/ code = 22 \/ code = 21) /\
  (code = 0 -> exists a, ac = Some a /\ lg_secret l' = ac_SharedSecret a) /\
  lg_h l' = lg_h l /\ lg_clientID l' = lg_clientID l /\ lg_version l' = lg_version l.
Proof.
  intros md5 c ac Ht code c' E. pose proof (TimeStamp2Str_ten _ Ht) as T10.
  unfold Login_Check in E. destruct ac as [a|].
  - unfold major_match in E. destruct (Z.land (lg_version c) 240 =? Z.land (ac_Version a) 240) eqn:Ev; cbn [negb] in E.
    + unfold beqb in E. destruct (list_eq_dec _ _ _) as [Ea|Ea]; injection E as <- <-.
      * split; [split; [intros _|lia]|].
        { exists a, (TimeStamp2Str (lg_timestamp c)). repeat split; auto; try lia; apply T10. }
        split; [split; [lia|discriminate]|]. split; [split; [lia|]|].
        { intros (a' & [= <-] & H). lia. }
        split; [split; [lia|]|].
        { intros (a' & [= <-] & _ & H). exfalso. apply (H _ T10). exact Ea. }
        split; [lia|]. split; [eauto|]. auto.
      * split; [split; [lia|]|].
        { intros (a' & ts & [= <-] & _ & Hts & H). exfalso. apply Ea. rewrite H.
          rewrite (ten_digits_unique ts _ Ht Hts). reflexivity. }
        split; [split; [lia|discriminate]|]. split; [split; [lia|]|].
        { intros (a' & [= <-] & H). lia. }
        split; [split; [intros _|lia]|].
        { exists a. split; [auto|]. split; [lia|]. intros ts Hts H. apply Ea. rewrite H.
          rewrite (ten_digits_unique ts _ Ht Hts). reflexivity. }
        split; [lia|]. split; [lia|]. auto.
    + injection E as <- <-. split; [split; [lia|]|].
      { intros (a' & ts & [= <-] & H & _). lia. }
      split; [split; [lia|discriminate]|]. split; [split; [intros _|lia]|].
      { exists a. split; auto. lia. }
      split; [split; [lia|]|].
      { intros (a' & [= <-] & H & _). lia. }
      split; [lia|]. split; [lia|]. auto.
  - injection E as <- <-. split; [split; [lia|]|].
    { intros (a' & ts & [=] & _). }
    split; [split; auto|]. split; [split; [lia|]|].
    { intros (a' & [=] & _). }
    split; [split; [lia|]|].
    { intros (a' & [=] & _). }
    split; [lia|]. split; [lia|]. auto.
Qed.

(** The whole exchange: the client's login is decoded, the account looked up under the
    decoded client id ([find], see msc_server/server/smgp_login.go:38), and checked. *)
Definition login_verdict (md5 : bytes -> bytes) (c : authconf) (seq : Z) (ts : bytes) (tsn : Z)
    (find : bytes -> option authconf) : res Z :=
  l <- over_wire (Login_Encode (NewLogin md5 c seq ts tsn)) (Login_Decode seq) ;;
  Ok (fst (Login_Check md5 l (find (lg_clientID l)))).

(** For an id of exactly 8 characters: accepted exactly when the account stored under that id
    has the same major version and the digests agree (they do for the client's own account). *)
Theorem C42_accept_partial : forall md5 c seq ts tsn find,
  (forall x, zlen (md5 x) = 16) -> is_byte (ac_Version c) -> 0 <= seq < 2 ^ 32 -> 0 <= tsn < 2 ^ 32 ->
  ten_digits ts tsn -> zlen (ac_ClientId c) = 8 ->
  exists v, login_verdict md5 c seq ts tsn find = Ok v /\
    (v = 0 <-> exists a, find (ac_ClientId c) = Some a /\ Z.land (ac_Version c) 240 = Z.land (ac_Version a) 240 /\
       md5 (ac_ClientId c ++ repeat 0 7 ++ ac_SharedSecret c ++ ts) = md5 (ac_ClientId a ++ repeat 0 7 ++ ac_SharedSecret a ++ ts)) /\
    (find (ac_ClientId c) = Some c -> v = 0).
Proof.
  intros md5 c seq ts tsn find Hmd Hv Hs Ht H10 Hid.
  destruct (C42_login_wire_partial md5 c seq ts tsn) as (_ & d & Ed & _ & D2 & _ & D4 & D5 & _ & D7); auto; [lia|].
  specialize (D7 Hid). unfold login_verdict. rewrite Ed. cbn [bind]. eexists; split; [reflexivity|].
  assert (Ht' : 0 <= lg_timestamp d < 2 ^ 32) by (rewrite D4; exact Ht).
  destruct (Login_Check md5 d (find (lg_clientID d))) as [code l'] eqn:E. cbn [fst].
  destruct (C42_check md5 d _ Ht' _ _ E) as (C0 & _). rewrite D7, D5, D2, D4 in C0. clear E.
  assert (I : code = 0 <-> exists a, find (ac_ClientId c) = Some a /\ Z.land (ac_Version c) 240 = Z.land (ac_Version a) 240 /\
       md5 (ac_ClientId c ++ repeat 0 7 ++ ac_SharedSecret c ++ ts) = md5 (ac_ClientId a ++ repeat 0 7 ++ ac_SharedSecret a ++ ts)).
  { rewrite C0. split.
    - intros (a & ts' & H1 & H2 & H3 & H4). exists a. split; [auto|]. split; [auto|].
      rewrite (ten_digits_unique ts' tsn Ht H3) in H4. rewrite (ten_digits_unique ts tsn Ht H10) in H4 |- *. exact H4.
    - intros (a & H1 & H2 & H3). exists a, ts. auto. }
  split; [exact I|]. intros Hf. apply I. exists c. auto.
Qed.

(** Ids of fewer than 8 characters: the decoded id is never the id sent, and a server that
    knows the account by its id only answers "69" - the login always fails. *)
Theorem C42_refuted : forall md5 c seq ts tsn find,
  (forall x, zlen (md5 x) = 16) -> is_byte (ac_Version c) -> 0 <= seq < 2 ^ 32 -> 0 <= tsn < 2 ^ 32 ->
  zlen (ac_ClientId c) < 8 ->
  (exists d, over_wire (Login_Encode (NewLogin md5 c seq ts tsn)) (Login_Decode seq) = Ok d /\ lg_clientID d <> ac_ClientId c) /\
  ((forall x a, find x = Some a -> x = ac_ClientId c) -> login_verdict md5 c seq ts tsn find = Ok 69).
Proof.
  intros md5 c seq ts tsn find Hmd Hv Hs Ht Hid.
  destruct (C42_login_wire_partial md5 c seq ts tsn) as (_ & d & Ed & _ & _ & _ & _ & _ & D6 & _); auto; [lia|].
  assert (Hne : lg_clientID d <> ac_ClientId c).
  { rewrite D6. intros H. apply (f_equal (@length Z)) in H. rewrite app_length, repeat_length in H. unfold zlen in Hid. lia. }
  split; [eauto|]. intros Hf. unfold login_verdict. rewrite Ed. cbn [bind].
  destruct (find (lg_clientID d)) as [a|] eqn:E; [|reflexivity]. exfalso. apply Hne. eauto.
Qed.

(** The response: 33 bytes, request's sequence number, status and digest, arrives unchanged. *)
Theorem C42_response : forall md5 l code, (forall x, zlen (md5 x) = 16) -> 0 <= h_seq (lg_h l) < 2 ^ 32 ->
  0 <= code < 2 ^ 32 -> is_byte (lg_version l) ->
  let digest := if code =? 0 then md5 ([0] ++ lg_clientID l ++ lg_secret l) else repeat 0 16 in
  LoginRsp_Encode (Login_ToResponse md5 l code) =
    Ok (render [U 4 33; U 4 2147483649; U 4 (h_seq (lg_h l)); U 4 code; R digest; U 1 (lg_version l)]) /\
  over_wire (LoginRsp_Encode (Login_ToResponse md5 l code)) (LoginRsp_Decode (h_seq (lg_h l))) =
    Ok (Login_ToResponse md5 l code) /\
  lr_status (Login_ToResponse md5 l code) = code /\ lr_auth (Login_ToResponse md5 l code) = digest.
Proof.
  intros md5 l code Hmd Hs Hc Hv digest.
  assert (Hd : lr_auth (Login_ToResponse md5 l code) = digest).
  { unfold Login_ToResponse, digest. cbn [lr_auth]. destruct (code =? 0) eqn:E; [|reflexivity].
    replace code with 0 by lia. reflexivity. }
  assert (W : login_rsp_wf (Login_ToResponse md5 l code)).
  { unfold login_rsp_wf. rewrite Hd. unfold Login_ToResponse. cbn [lr_h lr_status lr_version h_len h_cmd h_seq].
    split; [reflexivity|]. split; [reflexivity|]. split; [exact Hs|]. split; [exact Hc|]. split; [|exact Hv].
    unfold digest. destruct (code =? 0); [apply Hmd|reflexivity]. }
  rewrite LoginRsp_Encode_ok by auto. rewrite over_wire_ok, LoginRsp_Decode_ok by auto.
  split; [rewrite <- Hd, render_app; reflexivity|]. split; [reflexivity|]. split; [reflexivity|exact Hd].
Qed.
Definition sm_ac : authconf :=
  AuthConf [83;77;71;80] [49;50;51;52;53;54;55;56] [] [115;101;99] 48 1 [57;53] [77;49] 5 2 0 [] [48;48] [49;48] [48] [] 0 4 16 100.
Example C42_case :
  let md5 := fun _ : bytes => repeat 7 16 in
  login_verdict md5 sm_ac 9 [48;49;48;49;49;48;48;57;48;56] 101100908 (fun x => if list_eq_dec Z.eq_dec x (ac_ClientId sm_ac) then Some sm_ac else None) = Ok 0
  /\ ten_digits [48;49;48;49;49;48;48;57;48;56] 101100908.
Proof. split; [vm_compute; reflexivity|]. split; [reflexivity|]. split; [|reflexivity]. repeat constructor; cbn; lia. Qed.
Print Assumptions C42_login_wire_partial.
Print Assumptions C42_check.
Print Assumptions C42_accept_partial.
Print Assumptions C42_refuted.
Print Assumptions C42_response.

(** ** C43 SMGP submit *)

(** Layout and announced length for every well-formed submit with optional parameters
    [items] (none: a nil list). *)
Theorem C43_layout : forall s items, has_opts s items -> msubmit_wf s (opts_wire items) ->
  exists f, MSubmit_Encode s = Ok f /\
    f = render (head (h_len (ms_h s)) 2 (h_seq (ms_h s)) ++ msubmit_body s (opts_wire items)) /\
    zlen f = h_len (ms_h s) /\ UnpackHead f = Ok (h_len (ms_h s), 2, h_seq (ms_h s)).
Proof.
  intros s items Ho Hw. rewrite (MSubmit_Encode_ok s items Ho Hw). eexists; split; [reflexivity|]. split; [reflexivity|].
  destruct Hw as (_ & Hs & Hl & Hl2 & _). pose proof (zlen_nonneg (ms_destTermID s)). pose proof (zlen_nonneg (ms_content s)).
  pose proof (zlen_nonneg (opts_wire items)). split.
  - rewrite render_app, zlen_app. unfold msubmit_body. rewrite !render_app, !zlen_app, zlen_terms, !zlen_render.
    cbn [head widths width]. lia.
  - rewrite render_app. apply UnpackHead_head; lia.
Qed.

Definition same_submit (s d : msubmit) : Prop :=
  h_len (ms_h d) = h_len (ms_h s) /\ h_cmd (ms_h d) = h_cmd (ms_h s) /\ ms_msgType d = ms_msgType s /\
  ms_needReport d = ms_needReport s /\ ms_priority d = ms_priority s /\ ms_serviceID d = ms_serviceID s /\
  ms_feeType d = ms_feeType s /\ ms_feeCode d = ms_feeCode s /\ ms_fixedFee d = ms_fixedFee s /\
  ms_msgFormat d = ms_msgFormat s /\ ms_validTime d = ms_validTime s /\ ms_atTime d = ms_atTime s /\
  ms_srcTermID d = ms_srcTermID s /\ ms_chargeTermID d = ms_chargeTermID s /\ ms_count d = ms_count s /\
  ms_destTermID d = ms_destTermID s /\ ms_msgLength d = ms_msgLength s /\ ms_reserve d = ms_reserve s.

Lemma cut_plain c : plain c -> cut_udh c = Ok c.
Proof.
  intros [H1 H2]. destruct c as [|b0 r]; [contradiction|]. unfold cut_udh. rewrite at_here. cbn [bind].
  destruct (b0 =? 5) eqn:E0; [|reflexivity]. apply Z.eqb_eq in E0. subst b0.
  destruct r as [|b1 r]; [exfalso; apply H2; reflexivity|].
  rewrite at_cons_r by lia. rewrite at_here. cbn [bind].
  destruct (b1 =? 0) eqn:E1; [|reflexivity]. apply Z.eqb_eq in E1. subst b1.
  destruct r as [|b2 r]; [exfalso; apply H2; reflexivity|].
  rewrite !at_cons_r by lia. rewrite at_here. cbn [bind].
  destruct (b2 =? 3) eqn:E2; [|reflexivity]. apply Z.eqb_eq in E2. subst b2. exfalso; apply H2; reflexivity.
Qed.
Lemma cut_head h1 h2 h3 u : cut_udh ([5; 0; 3; h1; h2; h3] ++ u) = Ok u.
Proof.
  unfold cut_udh. rewrite (slice_at _ [5;0;3;h1;h2;h3] u []).
  - cbn [app]. rewrite at_here. cbn [bind Z.eqb Pos.eqb].
    rewrite at_cons_r, at_here by lia. cbn [bind Z.eqb].
    rewrite !at_cons_r, at_here by lia. reflexivity.
  - rewrite app_nil_r. reflexivity.
  - reflexivity.
  - rewrite zlen_app. reflexivity.
Qed.

(** Round trip, 1 to 255 numbers: every field, the optional parameters, and the text: the
    content bytes (behind a long-message header, if present) decoded from GB18030.
    Missing: empty content and content of one or two bytes 05, 05 00 (the decoder panics). *)
Theorem C43_round_trip_partial : forall gbd s items ver seq t body, has_opts s items -> msubmit_wf s (opts_wire items) ->
  msubmit_fits s ->
  (ms_content s = body /\ plain body \/ exists h1 h2 h3, ms_content s = [5; 0; 3; h1; h2; h3] ++ body) ->
  gbd body = Some t ->
  exists d, over_wire (MSubmit_Encode s) (MSubmit_Decode gbd ver seq) = Ok d /\ same_submit s d /\ ms_content d = t /\
    ms_tlv d = Some (built (match items with None => [] | Some it => it end)) /\ h_seq (ms_h d) = seq /\ ms_version d = ver.
Proof.
  intros gbd s items ver seq t body Ho Hw Hf Hb Hg. rewrite (MSubmit_Encode_ok s items Ho Hw), over_wire_ok.
  rewrite (MSubmit_Decode_ok gbd s items ver seq Ho Hw Hf).
  assert (Hc : cut_udh (ms_content s) = Ok body).
  { destruct Hb as [[-> Hp]|(h1 & h2 & h3 & ->)]; [apply cut_plain; auto|apply cut_head]. }
  rewrite Hc. cbn [bind]. rewrite Hg. eexists; split; [reflexivity|]. cbn [of_opt].
  destruct Hw as (Hcmd & _). unfold same_submit. cbn [ms_h ms_msgType ms_needReport ms_priority ms_serviceID ms_feeType
    ms_feeCode ms_fixedFee ms_msgFormat ms_validTime ms_atTime ms_srcTermID ms_chargeTermID ms_count ms_destTermID ms_msgLength
    ms_reserve ms_tlv ms_version ms_content h_len h_cmd h_seq]. rewrite Hcmd. repeat split.
Qed.

(** What NewSubmit makes of a text: part [k] of [n] with content bytes [b]. *)
Definition sm_items (n k : nat) : option (list (Z * bytes)) :=
  if (n =? 1)%nat then None
  else Some [(1, [0]); (2, [1]); (9, [u8 (Z.of_nat n)]); (10, [u8 (Z.of_nat k)])].

Lemma sm_parts_nth mk ph total seq nxt : forall parts i k,
  nth_error (sm_parts mk ph total seq nxt i parts) k =
  option_map (fun b => mk (if i + Z.of_nat k =? 0 then seq else u32 (nxt (i + Z.of_nat k)))
     (u32 (126 + ph * 21 + u8 (zlen b) + 20)) (u8 (zlen b)) b (Some (sm_tlvs total (i + Z.of_nat k)))) (nth_error parts k).
Proof.
  induction parts as [|b r IH]; intros i k; [destruct k; reflexivity|].
  destruct k; cbn [sm_parts nth_error option_map].
  - replace (i + Z.of_nat 0) with i by lia. reflexivity.
  - rewrite IH. replace (i + 1 + Z.of_nat k) with (i + Z.of_nat (S k)) by lia. reflexivity.
Qed.
Lemma sm_parts_length mk ph total seq nxt : forall parts i, length (sm_parts mk ph total seq nxt i parts) = length parts.
Proof. induction parts; intros; cbn; auto. Qed.

Lemma split140 g c : exists parts, ToTPUDHISlices g c 140 = Ok parts /\ parts <> [] /\ Forall (fun p => zlen p <= 140) parts /\
  (length parts = 1%nat -> parts = [c]).
Proof.
  destruct (Z_lt_ge_dec (zlen c) 140).
  - rewrite split_short by auto. exists [c]. split; auto. split; [discriminate|]. split; [constructor; [lia|constructor]|auto].
  - rewrite split_ok by lia. eexists. split; [reflexivity|]. change (140 - 6) with 134.
    pose proof (nparts_bounds (zlen c) 134 ltac:(lia) ltac:(lia)) as Hb.
    assert (2 <= nparts (zlen c) 134) by nia.
    split; [|split].
    + destruct (Z.to_nat (nparts (zlen c) 134)) eqn:E; [lia|]. cbn. discriminate.
    + apply Forall_forall. intros p Hp. apply in_map_iff in Hp as (k & <- & _).
      unfold head6, split_body. rewrite zlen_app.
      change (zlen [5; 0; 3; g; u8 (nparts (zlen c) 134); u8 (Z.of_nat k + 1)]) with 6.
      pose proof (Z.mod_pos_bound (zlen c) 134 ltac:(lia)).
      destruct (_ =? _); unfold zlen at 1; rewrite firstn_length; lia.
    + rewrite map_length, seq_length. lia.
Qed.

Lemma some_inj {A} (a b : A) : Some a = Some b -> a = b.
Proof. congruence. Qed.
Lemma sm_opts_len x y : zlen (flat_map tlv_wire [(1, [0]); (2, [1]); (9, [x]); (10, [y])]) = 20.
Proof. reflexivity. Qed.

Theorem C43_built : forall gbe ac phones content seq ops now g nxt data,
  ac_wf ac -> ops_wf ops -> zlen phones <= 255 -> 0 <= seq < 2 ^ 32 -> gbe content = Some data ->
  exists msgs parts, smgp_NewSubmit gbe ac phones content seq ops now g nxt = Ok msgs /\
    ToTPUDHISlices g data 140 = Ok parts /\ length msgs = length parts /\ parts <> [] /\
    forall k s b, nth_error msgs k = Some s -> nth_error parts k = Some b ->
      has_opts s (sm_items (length parts) k) /\ msubmit_wf s (opts_wire (sm_items (length parts) k)) /\
      ms_content s = b /\ ms_destTermID s = phones /\ ms_srcTermID s = ac_SmsDisplayNo ac ++ o_SpSubNo (LoadMtOptions ops) /\
      ms_msgFormat s = 15 /\ (k = 0%nat -> h_seq (ms_h s) = seq) /\ ms_version s = ac_Version ac.
Proof.
  intros gbe ac phones content seq ops now g nxt data (A1 & A2 & A3 & A4 & A5) Hops Hph Hs Hg.
  destruct (LoadMtOptions_wf ops Hops) as (O1 & O2 & O3 & O4).
  destruct (split140 g data) as (parts & Ep & Hne & Hlen & H1).
  unfold smgp_NewSubmit. rewrite Hg, Ep. cbn [bind].
  set (o := LoadMtOptions ops) in *.
  assert (Hso : forall x y, is_byte x -> is_byte y -> is_byte (sm_opt x y)) by (intros; unfold sm_opt; destruct (_ =? _); auto).
  pose proof (zlen_nonneg phones) as Hp0.
  assert (Hpart : forall q ow len b tl, 0 <= q < 2 ^ 32 -> zlen b <= 140 -> len = 126 + 21 * zlen phones + zlen b + zlen ow -> zlen ow <= 20 ->
      msubmit_wf (sm_base ac phones q o now (u32 len) (u8 (zlen b)) b tl) ow).
  { intros q ow len b tl Q1 Q2 Q3 Q4. unfold msubmit_wf, sm_base.
    cbn [ms_h ms_msgType ms_needReport ms_priority ms_msgFormat ms_count ms_destTermID ms_msgLength ms_content h_len h_cmd h_seq].
    pose proof (zlen_nonneg b). pose proof (zlen_nonneg ow). rewrite !u8_small by lia.
    assert (u32 len = len) as -> by (unfold u32; apply Z.mod_small; lia).
    split; [reflexivity|]. split; [auto|]. split; [lia|]. split; [lia|]. split; [reflexivity|]. split; [reflexivity|].
    split; [unfold is_byte; lia|]. split; [unfold is_byte; lia|]. split; [unfold is_byte; lia|].
    split; [auto|]. split; [auto|]. unfold is_byte; lia. }
  assert (Hsrc : forall q len ml b tl, ms_srcTermID (sm_base ac phones q o now len ml b tl) = ac_SmsDisplayNo ac ++ o_SpSubNo o).
  { intros. unfold sm_base. cbn [ms_srcTermID]. destruct (o_SpSubNo o); [rewrite app_nil_r|]; reflexivity. }
  destruct parts as [|b0 [|b1 r]]; [congruence| |].
  - eexists. exists [b0]. split; [reflexivity|]. split; [reflexivity|]. split; [reflexivity|]. split; [discriminate|].
    intros k s b Hk Hb. destruct k; [|destruct k; discriminate]. cbn [nth_error] in Hk, Hb. apply some_inj in Hk, Hb. subst s b.
    pose proof (Forall_inv Hlen) as Hb0. cbn [length sm_items Nat.eqb has_opts opts_wire]. cbn beta in Hb0.
    split; [reflexivity|]. split.
    { apply Hpart; auto; [|rewrite zlen_nil; lia]. rewrite zlen_nil, u8_small by (pose proof (zlen_nonneg b0); unfold bytes in *; lia). unfold bytes in *; lia. }
    split; [reflexivity|]. split; [reflexivity|]. split; [apply Hsrc|]. auto.
  - eexists. exists (b0 :: b1 :: r). split; [reflexivity|]. split; [reflexivity|].
    split; [apply sm_parts_length|]. split; [discriminate|].
    intros k s b Hk Hb. rewrite sm_parts_nth, Hb in Hk. cbn [option_map] in Hk.
    replace (0 + Z.of_nat k) with (Z.of_nat k) in Hk by lia. apply some_inj in Hk. subst s.
    assert (Hbl : zlen b <= 140).
    { rewrite Forall_forall in Hlen. apply Hlen. eapply nth_error_In; eauto. }
    assert (Ei : sm_items (length (b0 :: b1 :: r)) k =
       Some [(1, [0]); (2, [1]); (9, [u8 (zlen (b0 :: b1 :: r))]); (10, [u8 (Z.of_nat k)])]) by reflexivity.
    rewrite Ei. cbn [has_opts opts_wire]. split.
    { split; [reflexivity|]. repeat constructor; cbn; lia. }
    split.
    { apply Hpart; auto.
      - destruct (_ =? 0); [exact Hs|]. unfold u32. change (2 ^ 32) with 4294967296. apply Z.mod_pos_bound. lia.
      - rewrite u8_small by (pose proof (zlen_nonneg b); unfold bytes in *; lia). rewrite sm_opts_len. unfold bytes in *; lia.
      - rewrite sm_opts_len. lia. }
    split; [reflexivity|]. split; [reflexivity|]. split; [apply Hsrc|]. split; [reflexivity|]. split; [|reflexivity].
    intros ->. reflexivity.
Qed.

(** Parts are not numbered 1..n in the optional parameters: part k of 1..n carries k - 1
    (modulo 256), as sent and as decoded; in particular the first carries 0. *)
Theorem C43_refuted : forall gbe ac phones content seq ops now g nxt data msgs,
  ac_wf ac -> ops_wf ops -> zlen phones <= 255 -> 0 <= seq < 2 ^ 32 -> gbe content = Some data ->
  140 <= zlen data -> smgp_NewSubmit gbe ac phones content seq ops now g nxt = Ok msgs ->
  (2 <= length msgs)%nat /\
  forall k s, nth_error msgs k = Some s ->
    exists l, ms_tlv s = Some l /\ TlvGet 10 l = Ok (Tlv 10 1 [u8 (Z.of_nat k)]) /\ u8 (Z.of_nat k) <> u8 (Z.of_nat k + 1) /\
    TlvGet 9 l = Ok (Tlv 9 1 [u8 (Z.of_nat (length msgs))]).
Proof.
  intros gbe ac phones content seq ops now g nxt data msgs Ha Ho Hp Hs Hg Hl E.
  destruct (C43_built gbe ac phones content seq ops now g nxt data Ha Ho Hp Hs Hg) as (msgs' & parts & E1 & E2 & E3 & E4 & H).
  rewrite E in E1. injection E1 as <-.
  assert (H2 : (2 <= length parts)%nat).
  { pose proof (split_zlen g data 140 parts ltac:(lia) ltac:(lia) E2) as Hz.
    pose proof (nparts_bounds (zlen data) 134 ltac:(lia) ltac:(lia)). change (140 - 6) with 134 in Hz. unfold zlen in Hz at 1. nia. }
  split; [lia|]. intros k s Hk.
  destruct (nth_error parts k) as [b|] eqn:Eb.
  2:{ apply nth_error_None in Eb. assert (k < length msgs)%nat by (apply nth_error_Some; congruence). lia. }
  destruct (H k s b Hk Eb) as (Hop & _). unfold sm_items in Hop.
  replace (length parts =? 1)%nat with false in Hop by (symmetry; apply Nat.eqb_neq; lia). cbn [has_opts] in Hop.
  destruct Hop as [Ht _]. rewrite Ht. eexists; split; [reflexivity|]. split; [reflexivity|]. split.
  - unfold u8. pose proof (Z.mod_pos_bound (Z.of_nat k) 256 ltac:(lia)). intros X.
    rewrite Z.add_mod in X by lia. change (1 mod 256) with 1 in X.
    destruct (Z.eq_dec (Z.of_nat k mod 256) 255) as [e|e].
    + rewrite e in X. discriminate X.
    + rewrite (Z.mod_small (_ + 1)) in X by lia. lia.
  - rewrite E3. reflexivity.
Qed.

(** The empty text: the receiving side panics. *)
Theorem C43_refuted_empty : forall gbd s items ver seq, has_opts s items -> msubmit_wf s (opts_wire items) ->
  msubmit_fits s -> ms_content s = [] ->
  over_wire (MSubmit_Encode s) (MSubmit_Decode gbd ver seq) = Panic.
Proof.
  intros gbd s items ver seq Ho Hw Hf Hc. rewrite (MSubmit_Encode_ok s items Ho Hw), over_wire_ok.
  rewrite (MSubmit_Decode_ok gbd s items ver seq Ho Hw Hf), Hc. reflexivity.
Qed.
(** The response arrives unchanged. *)
Theorem C43_response : forall s code id, 0 <= h_seq (ms_h s) < 2 ^ 32 -> 0 <= code < 2 ^ 32 -> zlen id = 10 ->
  mresp_Encode (MSubmit_ToResponse s code id) = Ok (render [U 4 26; U 4 2147483650; U 4 (h_seq (ms_h s)); R id; U 4 code]) /\
  over_wire (mresp_Encode (MSubmit_ToResponse s code id)) (mresp_Decode 2147483650 (ms_version s) (h_seq (ms_h s))) =
    Ok (MSubmit_ToResponse s code id).
Proof.
  intros s code id Hs Hc Hi.
  assert (W : mresp_wf (MSubmit_ToResponse s code id)).
  { split; [reflexivity|]. split; [exact Hi|exact Hc]. }
  rewrite mresp_Encode_ok by auto. rewrite over_wire_ok, mresp_Decode_ok by auto.
  split; [rewrite render_app; reflexivity|reflexivity].
Qed.
Definition sm_demo : msubmit :=
  match smgp_NewSubmit (fun b => Some b) sm_ac [[49;51;57];[49;51;56]] (repeat 65 150) 7 [OSpSubNo [52]] [50;49] 9 (fun i => 100 + i) with
  | Ok (_ :: s :: _) => s | _ => sm_base sm_ac [] 0 mt_default [] 0 0 [] None end.
Example C43_case : has_opts sm_demo (sm_items 2 1) /\ msubmit_wf sm_demo (opts_wire (sm_items 2 1)) /\ msubmit_fits sm_demo /\
  ms_content sm_demo = [5;0;3;9;2;2] ++ repeat 65 16 /\ h_len (ms_h sm_demo) = 126 + 42 + 22 + 20.
Proof.
  split; [split; [vm_compute; reflexivity|]|]. { repeat constructor; cbn; lia. }
  split. { vm_compute. repeat split; congruence. }
  split. { unfold msubmit_fits.
    do 8 (split; [split; [vm_compute; intuition discriminate|apply Nat.leb_le; vm_compute; reflexivity]|]).
    split; [|split; [vm_compute; intuition discriminate|apply Nat.leb_le; vm_compute; reflexivity]].
    change (ms_destTermID sm_demo) with [[49;51;57];[49;51;56]]. constructor; [|constructor; [|constructor]];
      (split; [cbn; intuition lia|cbn; lia]). }
  split; vm_compute; reflexivity.
Qed.
Print Assumptions C43_layout.
Print Assumptions C43_round_trip_partial.
Print Assumptions C43_built.
Print Assumptions C43_refuted.
Print Assumptions C43_refuted_empty.
Print Assumptions C43_response.

(** ** C44 SMGP deliver and report *)

(** A text deliver whose length byte counts its content bytes arrives unchanged; its text is
    the content decoded from GB18030. *)
Theorem C44_deliver : forall gbd d t ver seq, md_isReport d = 0 -> mdeliver_wf d (md_bytes d) ->
  md_msgLength d = zlen (md_bytes d) -> mdeliver_fits d -> gbd (md_bytes d) = Some t ->
  MDeliver_Encode d = Ok (render (head (h_len (md_h d)) 3 (h_seq (md_h d)) ++ mdeliver_body d (md_bytes d))) /\
  over_wire (MDeliver_Encode d) (MDeliver_Decode gbd ver seq) =
    Ok (MDeliver (CHead (h_len (md_h d)) 3 seq) (md_msgId d) 0 (md_msgFormat d) (md_recvTime d) (md_srcTermID d)
         (md_destTermID d) (md_msgLength d) t [] None [] ver).
Proof.
  intros gbd d t ver seq Hr Hw Hm Hf Hg.
  assert (Hc : mdeliver_content d = Ok (md_bytes d)).
  { unfold mdeliver_content. rewrite Hr, Hm. change (0 =? 1) with false. cbv iota. rewrite fit_exact; [reflexivity|]. unfold zlen. lia. }
  rewrite (MDeliver_Encode_ok d _ Hc); [|lia|auto]. split; [reflexivity|].
  rewrite over_wire_ok, MDeliver_Decode_text by (auto; lia). rewrite Hg, Hr. reflexivity.
Qed.

(** A built deliver: the text (at most 70 characters) arrives and the length byte counts the
    content, provided its GB18030 form has at most 255 bytes. *)
Theorem C44_built_partial : forall gbe gbd ac phone destNo txt seq id now b ver seq',
  is_byte (ac_Version ac) -> 0 <= seq < 2 ^ 32 -> zlen id = 10 -> fits 14 now -> fits 21 phone ->
  fits 21 (ac_SmsDisplayNo ac ++ destNo) -> zlen (runes txt) <= 70 ->
  gbe txt = Some b -> gbd b = Some txt -> zlen b <= 255 ->
  let d := smgp_NewDeliver gbe ac phone destNo txt seq id now in
  md_msgLength d = zlen b /\ h_len (md_h d) = 89 + zlen b /\
  exists d', over_wire (MDeliver_Encode d) (MDeliver_Decode gbd ver seq') = Ok d' /\ md_content d' = txt /\
    md_content d = txt /\
    md_msgId d' = id /\ md_srcTermID d' = phone /\ md_destTermID d' = ac_SmsDisplayNo ac ++ destNo /\ md_recvTime d' = now /\
    md_msgLength d' = zlen b /\ md_isReport d' = 0 /\ md_msgFormat d' = 15 /\ md_report d' = None /\ h_len (md_h d') = h_len (md_h d).
Proof.
  intros gbe gbd ac phone destNo txt seq id now b ver seq' Hv Hs Hi F1 F2 F3 H70 E1 E2 Hb d.
  pose proof (zlen_nonneg b) as Hb0.
  assert (Hsub : sub_text txt = txt) by (unfold sub_text; replace (70 <? _) with false by lia; reflexivity).
  assert (Ed : d = MDeliver (CHead (89 + zlen b) 3 seq) id 0 15 now phone (ac_SmsDisplayNo ac ++ destNo) (zlen b) txt b None [] (ac_Version ac)).
  { unfold d, smgp_NewDeliver. rewrite Hsub, E1. cbn [of_opt]. rewrite u8_small by lia. reflexivity. }
  clearbody d. subst d. cbn [md_msgLength md_h h_len]. split; [reflexivity|]. split; [reflexivity|].
  destruct (C44_deliver gbd (MDeliver (CHead (89 + zlen b) 3 seq) id 0 15 now phone (ac_SmsDisplayNo ac ++ destNo) (zlen b) txt b None [] (ac_Version ac)) txt ver seq') as [_ ->]; auto.
  - unfold mdeliver_wf. cbn [md_h md_bytes md_msgId md_isReport md_msgFormat md_msgLength h_cmd h_seq h_len].
    split; [reflexivity|]. split; [auto|]. split; [reflexivity|]. split; [lia|]. split; [auto|]. unfold is_byte. lia.
  - split; [auto|]. split; auto.
  - eexists; split; [reflexivity|]. cbn. repeat split.
Qed.

(** Longer encodings: the length byte wraps; the frame announces and carries 256 (or 512)
    bytes less than the text has. *)
Theorem C44_refuted : forall gbe ac phone destNo txt seq id now b,
  zlen (runes txt) <= 70 -> gbe txt = Some b -> 256 <= zlen b ->
  let d := smgp_NewDeliver gbe ac phone destNo txt seq id now in
  md_msgLength d = zlen b mod 256 /\ md_msgLength d < zlen b /\ h_len (md_h d) < 89 + zlen b /\
  (zlen id = 10 -> 0 <= seq < 2 ^ 32 ->
   MDeliver_Encode d = Ok (render (head (h_len (md_h d)) 3 seq ++ mdeliver_body d (firstn (Z.to_nat (zlen b mod 256)) b)))).
Proof.
  intros gbe ac phone destNo txt seq id now b H70 E1 Hb d.
  assert (Hsub : sub_text txt = txt) by (unfold sub_text; replace (70 <? _) with false by lia; reflexivity).
  assert (Ed : d = MDeliver (CHead (89 + zlen b mod 256) 3 seq) id 0 15 now phone (ac_SmsDisplayNo ac ++ destNo) (zlen b mod 256) txt b None [] (ac_Version ac)).
  { unfold d, smgp_NewDeliver. rewrite Hsub, E1. reflexivity. }
  clearbody d. subst d. cbn [md_msgLength md_h h_len]. pose proof (Z.mod_pos_bound (zlen b) 256 ltac:(lia)) as Hm.
  split; [reflexivity|]. split; [lia|]. split; [lia|]. intros Hi Hs.
  match goal with |- MDeliver_Encode ?d = _ => rewrite (MDeliver_Encode_ok d (firstn (Z.to_nat (zlen b mod 256)) b)) end.
  - reflexivity.
  - unfold mdeliver_content. cbn [md_isReport md_msgLength md_bytes]. change (0 =? 1) with false. cbv iota.
    unfold fit. replace (_ - _)%nat with 0%nat by (unfold zlen in *; lia). cbn [repeat]. rewrite app_nil_r. reflexivity.
  - cbn. lia.
  - unfold mdeliver_wf. cbn [md_h md_msgId md_isReport md_msgFormat md_msgLength h_cmd h_seq h_len].
    assert (Hf : zlen (firstn (Z.to_nat (zlen b mod 256)) b) = zlen b mod 256).
    { unfold zlen at 1. rewrite firstn_length. unfold zlen in *. lia. }
    rewrite Hf. split; [reflexivity|]. split; [auto|]. split; [reflexivity|]. split; [lia|]. split; [auto|]. unfold is_byte. lia.
Qed.

(** A status report, alone and inside a deliver, decodes to the same fields. *)
Theorem C44_report : forall r, mreport_wf r -> mp_txt r = [] ->
  exists b, mreport_Encode r = Ok b /\ zlen b = 122 /\ b = render (mreport_body r) /\ mreport_Decode b = Ok r.
Proof.
  intros r Hw Ht. rewrite mreport_Encode_ok by auto. eexists; split; [reflexivity|].
  split; [apply zlen_mreport_body; auto|]. split; [reflexivity|]. apply mreport_Decode_ok; auto.
Qed.
Theorem C44_report_deliver : forall gbd d r ver seq, md_isReport d = 1 -> md_report d = Some r -> mreport_wf r -> mp_txt r = [] ->
  mdeliver_wf d (render (mreport_body r)) -> mdeliver_fits d ->
  over_wire (MDeliver_Encode d) (MDeliver_Decode gbd ver seq) =
    Ok (MDeliver (CHead (h_len (md_h d)) 3 seq) (md_msgId d) 1 (md_msgFormat d) (md_recvTime d) (md_srcTermID d)
         (md_destTermID d) (md_msgLength d) [] [] (Some r) [] ver).
Proof.
  intros gbd d r ver seq H1 H2 Hw Ht Hd Hf.
  assert (Hc : mdeliver_content d = Ok (render (mreport_body r))).
  { unfold mdeliver_content. rewrite H1, H2. change (1 =? 1) with true. cbv iota. apply mreport_Encode_ok; auto. }
  rewrite (MDeliver_Encode_ok d _ Hc); [|intros; apply zlen_mreport_body; auto|auto].
  rewrite over_wire_ok. apply MDeliver_Decode_report; auto.
Qed.
(** Reports built by the server: the report of a submit carries the given message id, goes to
    the submit's sender from its first number, and arrives unchanged.  But its length byte is
    115 although the content has 122 bytes: refuted for every report. *)
Theorem C44_refuted_report : forall gbd ac mt seq msgId id now sec d1 d2 p rest ver seq',
  ms_destTermID mt = p :: rest -> 0 <= seq < 2 ^ 32 -> zlen msgId = 10 -> zlen id = 10 -> fits 14 now ->
  zlen d1 = 10 -> zlen d2 = 10 -> fits 21 p -> fits 21 (ms_srcTermID mt) -> 0 <= sec ->
  exists d r d' c, smgp_NewDeliveryReport ac mt seq msgId id now sec d1 d2 = Ok d /\ md_report d = Some r /\ mp_id r = msgId /\
    mreport_wf r /\
    MDeliver_Encode d = Ok (render (head 211 3 seq ++ mdeliver_body d c)) /\ zlen c = 122 /\
    md_msgLength d = 115 /\ md_msgLength d <> zlen c /\
    over_wire (MDeliver_Encode d) (MDeliver_Decode gbd ver seq') = Ok d' /\ md_report d' = Some r /\
    md_srcTermID d' = p /\ md_destTermID d' = ms_srcTermID mt /\ md_isReport d' = 1 /\ md_msgId d' = id.
Proof.
  intros gbd ac mt seq msgId id now sec d1 d2 p rest ver seq' Hdst Hs Hm Hi Fn L1 L2 Fp Fs Hsec.
  unfold smgp_NewDeliveryReport. rewrite Hdst, at_here. cbn [bind].
  set (r := smgp_NewReport msgId sec d1 d2).
  assert (Hw : mreport_wf r).
  { unfold mreport_wf, r, smgp_NewReport. cbn [mp_id mp_sub mp_dlvrd mp_submitDate mp_doneDate mp_stat mp_err].
    repeat (split; [first [reflexivity|auto]|]); [|reflexivity].
    unfold stat_of. destruct (_ =? 0); [reflexivity|]. destruct (_ || _); reflexivity. }
  assert (Ht : mp_txt r = []) by reflexivity.
  set (d := MDeliver _ _ _ _ _ _ _ _ _ _ _ _ _).
  assert (Hd : mdeliver_wf d (render (mreport_body r))).
  { unfold mdeliver_wf, d. rewrite zlen_mreport_body by auto.
    cbn [md_h md_msgId md_isReport md_msgFormat md_msgLength h_cmd h_seq h_len]. unfold RptLen.
    split; [reflexivity|]. split; [auto|]. split; [reflexivity|]. split; [lia|]. split; [auto|]. unfold is_byte. lia. }
  assert (Hf : mdeliver_fits d) by (split; [auto|split; auto]).
  exists d, r. eexists. exists (render (mreport_body r)).
  split; [reflexivity|]. split; [reflexivity|]. split; [reflexivity|]. split; [auto|].
  split. { rewrite (MDeliver_Encode_ok d (render (mreport_body r))); auto.
    - unfold mdeliver_content. cbn [md_isReport md_report d]. change (1 =? 1) with true. cbv iota. apply mreport_Encode_ok; auto.
    - intros; apply zlen_mreport_body; auto. }
  split; [apply zlen_mreport_body; auto|]. split; [reflexivity|]. split; [rewrite zlen_mreport_body by auto; cbn; lia|].
  split; [apply (C44_report_deliver gbd d r ver seq'); auto|]. cbn. auto 6.
Qed.
Example C44_case :
  let d := smgp_NewDeliver (fun b => Some b) sm_ac [49;51;57] [55] [104;105] 3 (repeat 1 10) (repeat 50 14) in
  MDeliver_Encode d = Ok ([0;0;0;91; 0;0;0;3; 0;0;0;3] ++ repeat 1 10 ++ [0; 15] ++ repeat 50 14 ++ fit 21 [49;51;57] ++ fit 21 [57;53;55]
    ++ [2; 104; 105] ++ repeat 0 8)
  /\ fits 21 (ac_SmsDisplayNo sm_ac ++ [55]) /\ zlen (runes [104;105]) <= 70.
Proof. split; [vm_compute; reflexivity|]. split; [split; cbn; [intuition lia|lia]|]. vm_compute. congruence. Qed.
Example C44_case_report :
  let r := smgp_NewReport [16;0;1;2;3;4;5;6;7;8] 1003 (repeat 49 10) (repeat 50 10) in
  mreport_wf r /\ mp_stat r = [85;78;68;69;76;73;86] /\ mp_err r = [48;48;51] /\ (b <- mreport_Encode r ;; mreport_Decode b) = Ok r.
Proof. repeat split; vm_compute; reflexivity. Qed.
(** 70 characters of four bytes each, for an encoder that keeps them at four bytes (GB18030
    does for characters outside the BMP). *)
Example C44_case_wrap :
  let txt := concat (repeat [240;159;152;128] 70) in
  let d := smgp_NewDeliver (fun b => Some b) sm_ac [49] [] txt 3 (repeat 1 10) (repeat 50 14) in
  zlen (runes txt) = 70 /\ md_msgLength d = 24 /\ h_len (md_h d) = 113.
Proof. repeat split; vm_compute; reflexivity. Qed.
Print Assumptions C44_deliver.
Print Assumptions C44_built_partial.
Print Assumptions C44_refuted.
Print Assumptions C44_report.
Print Assumptions C44_report_deliver.
Print Assumptions C44_refuted_report.

(** * What the log shows (C87, C88, C89). *)
From Coq Require Import String.
From Verif Require Import Base UtilsModel OptionsModel TlvModel CmppModel SgipModel SmgpModel FrameModel ServerModel LogModel.
From Verif Require Import SpecText UtilsProofs SpecWire WireProofs CmppBuildProofs PropCmpp2.
From Verif Require Import ServerProofs.
Import LogModel.

(** ** Reading a log line *)
(** The first value under a key. *)
Fixpoint value_of (key : string) (fs : list field) : option fval :=
  match fs with
  | [] => None
  | (k, v) :: r => if String.eqb k key then Some v else value_of key r
  end.
(** Undoing a hexadecimal dump: two digits per octet. *)
Fixpoint hex_read (s : bytes) : option bytes :=
  match s with
  | [] => Some []
  | [_] => None
  | a :: b :: r =>
    match hex_digit_value a, hex_digit_value b, hex_read r with
    | Some x, Some y, Some l => Some (16 * x + y :: l)
    | _, _, _ => None
    end
  end.
(** A line from which the octets [f] of a packet can be read. *)
Definition shows_packet (l : line) (f : bytes) : Prop :=
  exists v, value_of "packet"%string (ln_fields l) = Some (FS v) /\ hex_read v = Some f.
(** The fields that stand for the session never use the keys of a packet (log_utils.go:10-13). *)
Definition session_fields (ls : list field) : Prop :=
  Forall (fun f => In (fst f) ["server"; "auth"; "sid"; "remote"]%string) ls.
(** Not a debug line: what is written at the levels info, warn and error. *)
Definition above_debug (l : line) : bool := match ln_level l with LDebug => false | _ => true end.

(** ** Lemmas *)
Lemma hexd_value d : 0 <= d < 16 -> hex_digit_value (hexd d) = Some d.
Proof.
  intros H. unfold hexd, hex_digit_value. destruct (d <? 10) eqn:E.
  - replace ((48 <=? 48 + d) && (48 + d <=? 57)) with true by lia. f_equal. lia.
  - replace ((48 <=? 87 + d) && (87 + d <=? 57)) with false by lia.
    replace ((97 <=? 87 + d) && (87 + d <=? 102)) with true by lia. f_equal. lia.
Qed.
Lemma hex_read_bytes b : bytes_ok b -> hex_read (hex_bytes b) = Some b.
Proof.
  induction b as [|x b IH]; intros H; [reflexivity|]. inversion H as [|? ? Hx Hb]; subst.
  unfold is_byte in Hx. cbn [hex_bytes flat_map app hex_read].
  rewrite !hexd_value by lia. fold (hex_bytes b). rewrite IH by auto.
  do 2 f_equal. lia.
Qed.
Lemma value_of_session ls fs key : session_fields ls -> ~ In key ["server"; "auth"; "sid"; "remote"]%string ->
  value_of key (ls ++ fs) = value_of key fs.
Proof.
  induction ls as [|[k v] ls IH]; intros H N; [reflexivity|]. inversion H as [|? ? Hk Hr]; subst.
  cbn [app value_of]. destruct (String.eqb_spec k key) as [->|]; [destruct (N Hk)|]. apply IH; auto.
Qed.
Lemma not_session key : existsb (String.eqb key) ["server"; "auth"; "sid"; "remote"]%string = false ->
  ~ In key ["server"; "auth"; "sid"; "remote"]%string.
Proof.
  intros E I. rewrite <- Bool.not_true_iff_false in E. apply E. apply existsb_exists. exists key.
  split; auto. apply String.eqb_refl.
Qed.

Lemma slice_cut {A} (f : list A) lo hi x : slice f lo hi = Ok x ->
  x = firstn (Z.to_nat (hi - lo)) (skipn (Z.to_nat lo) f).
Proof. unfold slice. destruct (_ && _); congruence. Qed.
(** The characters before the first NUL of a field start that field. *)
Lemma trimmed_starts (r : bytes) n : firstn (length (TrimStr (firstn n r))) r = TrimStr (firstn n r).
Proof.
  set (p := firstn n r).
  assert (X : exists t, p = TrimStr p ++ t).
  { destruct (TrimStr_prefix p) as [R|(t & R)]; [exists []; rewrite R, app_nil_r; auto|]. exists (0 :: t). exact R. }
  destruct X as (t & X).
  assert (Y : r = TrimStr p ++ t ++ skipn n r).
  { rewrite app_assoc, <- X. unfold p. symmetry. apply firstn_skipn. }
  rewrite Y at 1. rewrite firstn_app, firstn_all, Nat.sub_diag. cbn [firstn]. apply app_nil_r.
Qed.

(** ** C87 Passwords and secrets stay out of the log *)

(** REFUTED for SGIP: handling a bind packet always writes the whole body, and from it the
    password of every login that is accepted can be read: at debug level... *)
Theorem C87_refuted_debug : forall md5 names find ls ls' pool over sent k lines,
  session_fields ls -> bytes_ok (pk_body k) ->
  login_lines P_SGIP md5 names find ls ls' pool over sent k = Ok lines ->
  exists l rest, lines = l :: rest /\ shows_packet l (pk_body k) /\
  forall b ac, Bind_Decode (pk_seq k) (pk_body k) = Ok b -> Bind_Check b (Some ac) = 0 ->
    firstn (length (ac_SharedSecret ac)) (skipn 25 (pk_body k)) = ac_SharedSecret ac.
Proof.
  intros md5 names find ls ls' pool over sent k lines HS HB E.
  assert (F : exists rest, lines = traffic_line P_SGIP ls k :: rest).
  { unfold login_lines in E. destruct (decode_login P_SGIP k) as [l| |]; [|injection E as <-; eauto|discriminate].
    destruct pool; [injection E as <-; eauto|]. destruct (login_check md5 l _). injection E as <-. eauto. }
  destruct F as (rest & ->). exists (traffic_line P_SGIP ls k), rest. split; [reflexivity|]. split.
  - exists (hex_bytes (pk_body k)). split; [|apply hex_read_bytes; auto].
    unfold traffic_line. cbn [ln_fields]. rewrite value_of_session; auto. apply not_session. reflexivity.
  - intros b ac D C. unfold Bind_Decode in D.
    apply bind_ok in D as (? & _ & D). apply bind_ok in D as (? & _ & D). apply bind_ok in D as (? & _ & D).
    apply bind_ok in D as (? & _ & D). apply bind_ok in D as (p & P & D). injection D as <-.
    unfold Bind_Check in C. cbn [bd_name bd_pwd] in C.
    destruct (beqb (ac_SharedSecret ac) (TrimStr p)) eqn:Q; [|rewrite Bool.andb_false_r in C; discriminate].
    apply beqb_iff in Q. rewrite Q. rewrite (slice_cut _ _ _ _ P). apply trimmed_starts.
Qed.
(** ... and at error level whenever the pool of goroutines refuses the job. *)
Theorem C87_refuted_pool : forall md5 names find ls ls' e over sent k lines,
  session_fields ls -> bytes_ok (pk_body k) -> 41 <= zlen (pk_body k) ->
  login_lines P_SGIP md5 names find ls ls' (Some e) over sent k = Ok lines ->
  exists l, In l lines /\ ln_level l = LError /\ shows_packet l (pk_body k).
Proof.
  intros md5 names find ls ls' e over sent k lines HS HB HL E. unfold login_lines in E.
  destruct (decode_login P_SGIP k) as [l| |]; [| |discriminate]; injection E as <-;
    (eexists; split; [right; left; reflexivity|split; [reflexivity|]]);
    (exists (hex_bytes (pk_body k)); split; [|apply hex_read_bytes; auto]);
    cbn [ln_fields pool_error_line decode_error_line]; (rewrite value_of_session; [reflexivity|auto|apply not_session; reflexivity]).
Qed.

(** REFUTED for CMPP and SMGP in effect: the info line of an accepted login shows everything that is needed to log in
    again, because the server accepts a packet it has seen before.  [again_cmpp] makes a login body from the fields of
    that line. *)
Definition text_of (v : option fval) : bytes := match v with Some (FS s) => s | _ => [] end.
Definition octets_of (v : option fval) : bytes := match hex_read (text_of v) with Some b => b | None => [] end.
Definition be4 (n : Z) : bytes := [n / 2 ^ 24 mod 256; n / 2 ^ 16 mod 256; n / 2 ^ 8 mod 256; n mod 256].
Definition again_cmpp (fs : list field) : bytes :=
  let id := text_of (value_of "clientID"%string fs) in
  id ++ repeat 0 (6 - length id) ++ octets_of (value_of "authenticatorSource"%string fs) ++
  octets_of (value_of "version"%string fs) ++ be4 (dec_value (text_of (value_of "timestamp"%string fs))).
Definition again_smgp (fs : list field) : bytes :=
  text_of (value_of "clientID"%string fs) ++ octets_of (value_of "authenticatorSource"%string fs) ++
  [match value_of "loginMode"%string fs with Some (FN n) => n mod 256 | _ => 0 end] ++
  be4 (dec_value (text_of (value_of "timestamp"%string fs))) ++ octets_of (value_of "version"%string fs).
Lemma be4_is n : be4 n = be 4 n.
Proof.
  unfold be4. cbn [be app]. change (2 ^ 24) with (256 * (256 * 256)). change (2 ^ 16) with (256 * 256).
  change (2 ^ 8) with 256. rewrite !Z.div_div by lia. rewrite !Z.mul_assoc. reflexivity.
Qed.
Lemma slice_bytes f lo hi x : bytes_ok f -> slice f lo hi = Ok x -> bytes_ok x.
Proof. intros H E. rewrite (slice_cut _ _ _ _ E). apply bytes_ok_firstn, bytes_ok_skipn. auto. Qed.
Lemma at_byte f i x : bytes_ok f -> at_ f i = Ok x -> is_byte x.
Proof.
  unfold at_. destruct (_ && _); [|discriminate]. intros H E. destruct (nth_error f (Z.to_nat i)) eqn:N; [|discriminate].
  injection E as <-. apply nth_error_In in N. unfold bytes_ok in H. rewrite Forall_forall in H. auto.
Qed.
Lemma get_be_range f lo hi x : bytes_ok f -> get_be 4 f lo hi = Ok x -> 0 <= x < 2 ^ 32.
Proof.
  intros H E. unfold get_be in E. apply bind_ok in E as (s & S & E). destruct (_ <=? _) eqn:L; [|discriminate].
  assert (E' : x = unbe (firstn 4 s)) by congruence. rewrite E'.
  pose proof (unbe_range (firstn 4 s) (bytes_ok_firstn 4 s (slice_bytes _ _ _ _ H S))) as R.
  replace (zlen (firstn 4 s)) with 4 in R; [exact R|]. unfold zlen in *. rewrite firstn_length. lia.
Qed.
Lemma length_TrimStr s : (length (TrimStr s) <= length s)%nat.
Proof.
  destruct (TrimStr_prefix s) as [->|(r & R)]; [lia|]. rewrite R at 2. rewrite app_length. lia.
Qed.
Lemma bytes_ok_TrimStr s : bytes_ok s -> bytes_ok (TrimStr s).
Proof. intros H. destruct (TrimStr_prefix s) as [->|(r & R)]; auto. rewrite R in H. apply bytes_ok_app in H. tauto. Qed.

(** What a decoded CMPP login looks like. *)
Lemma Connect_Decode_facts seq f c : bytes_ok f -> Connect_Decode seq f = Ok c ->
  (length (cn_sourceAddr c) <= 6)%nat /\ no_nul (cn_sourceAddr c) /\ bytes_ok (cn_auth c) /\ zlen (cn_auth c) = 16 /\
  is_byte (cn_version c) /\ 0 <= cn_timestamp c < 2 ^ 32.
Proof.
  intros H E. unfold Connect_Decode in E.
  apply bind_ok in E as (a & A & E). apply bind_ok in E as (au & B & E). apply bind_ok in E as (v & C & E).
  apply bind_ok in E as (t & D & E). injection E as <-. cbn [cn_sourceAddr cn_auth cn_version cn_timestamp].
  pose proof (slice_len _ _ _ _ A). pose proof (length_TrimStr a).
  split; [unfold zlen in *; lia|]. split; [apply TrimStr_out|]. split; [eapply slice_bytes; eauto|].
  split; [apply slice_len in B; lia|]. split; [eapply at_byte; eauto|]. eapply get_be_range; eauto.
Qed.
Lemma Connect_Decode_pieces seq a au v t : zlen a = 6 -> zlen au = 16 -> 0 <= t < 2 ^ 32 ->
  Connect_Decode seq (a ++ au ++ [v] ++ be4 t) = Ok (Connect (CHead 39 CONNECT seq) (TrimStr a) au v t []).
Proof.
  intros A B T. unfold Connect_Decode. rewrite slice_app_l by lia. cbn [bind].
  rewrite slice_app_r by lia. rewrite A. rewrite slice_app_l by lia. cbn [bind].
  rewrite at_app_r by lia. rewrite A. rewrite at_app_r by lia. rewrite B. change (22 - 6 - 16) with 0.
  cbn [app]. rewrite at_here. cbn [bind].
  rewrite get_be_app_r by lia. rewrite A. rewrite get_be_app_r by lia. rewrite B.
  change (v :: be4 t) with ([v] ++ be4 t). rewrite get_be_app_r by (cbn; lia).
  change (23 - 6 - 16 - zlen [v]) with 0. change (27 - 6 - 16 - zlen [v]) with 4.
  rewrite be4_is. rewrite <- (app_nil_r (be 4 t)). rewrite get_be_here by (rewrite zlen_be; reflexivity).
  cbn [bind]. rewrite unbe_be_small by (change (256 ^ Z.of_nat 4) with (2 ^ 32); lia). reflexivity.
Qed.
Lemma again_cmpp_decodes ls c seq' : session_fields ls -> (length (cn_sourceAddr c) <= 6)%nat -> no_nul (cn_sourceAddr c) ->
  bytes_ok (cn_auth c) -> zlen (cn_auth c) = 16 -> is_byte (cn_version c) -> 0 <= cn_timestamp c < 2 ^ 32 ->
  Connect_Decode seq' (again_cmpp (ls ++ Connect_Log c))
  = Ok (Connect (CHead 39 CONNECT seq') (cn_sourceAddr c) (cn_auth c) (cn_version c) (cn_timestamp c) []).
Proof.
  intros HS L N B A V T. unfold again_cmpp. rewrite !value_of_session by (auto; apply not_session; reflexivity).
  unfold Connect_Log, head_Log. cbn [app value_of String.eqb Ascii.eqb Bool.eqb text_of].
  unfold octets_of, text_of, hex1, u8. unfold is_byte in V. rewrite (Z.mod_small (cn_version c)) by lia.
  rewrite !hex_read_bytes; [|repeat constructor; unfold is_byte; lia|auto].
  destruct (TimeStamp2Str_spec (cn_timestamp c) T) as (_ & _ & D). rewrite D.
  rewrite app_assoc. rewrite Connect_Decode_pieces; auto.
  - rewrite TrimStr_pad by auto. reflexivity.
  - unfold zlen. rewrite app_length, repeat_length. lia.
Qed.
Theorem C87_refuted_replay_cmpp : forall md5 names find ls ls' over sent k lines seq',
  session_fields ls -> bytes_ok (pk_body k) ->
  login_lines P_CMPP md5 names find ls ls' None over sent k = Ok lines ->
  exists l c c', In l lines /\ ln_level l = LInfo /\
    Connect_Decode (pk_seq k) (pk_body k) = Ok c /\ Connect_Decode seq' (again_cmpp (ln_fields l)) = Ok c' /\
    cn_sourceAddr c' = cn_sourceAddr c /\
    forall ac, fst (Connect_Check md5 c' ac) = fst (Connect_Check md5 c ac).
Proof.
  intros md5 names find ls ls' over sent k lines seq' HS HB E. unfold login_lines in E. cbn [decode_login] in E.
  destruct (Connect_Decode (pk_seq k) (pk_body k)) as [c|e|] eqn:D; cbn [bind] in E.
  - destruct (Connect_Decode_facts _ _ _ HB D) as (F1 & F2 & F3 & F4 & F5 & F6).
    destruct (login_check md5 (LCmpp c) _). injection E as <-.
    eexists _, c, _. split; [right; left; reflexivity|]. split; [reflexivity|]. split; [reflexivity|].
    cbn [ln_fields login_Log]. split; [apply again_cmpp_decodes; auto|]. split; [reflexivity|].
    intros [ac|]; [|reflexivity]. unfold Connect_Check. cbn [cn_version cn_auth cn_timestamp].
    destruct (negb _); [reflexivity|]. destruct (beqb _ _); reflexivity.
  - exfalso. unfold Connect_Decode in D. 
    repeat (match type of D with bind ?x _ = _ => destruct x eqn:?; cbn [bind] in D end; try discriminate);
    injection D as ->;
    match goal with X : slice _ _ _ = Err _ |- _ => unfold slice in X; destruct (_ && _); discriminate
                  | X : at_ _ _ = Err _ |- _ => exact (at_noerr _ _ _ X)
                  | X : get_be _ _ _ _ = Err _ |- _ => unfold get_be in X; unfold slice in X; destruct (_ && _); cbn [bind] in X; [destruct (_ <=? _)|]; discriminate end.
  - discriminate.
Qed.
Lemma Login_Decode_facts seq f l : bytes_ok f -> Login_Decode seq f = Ok l ->
  zlen (lg_clientID l) = 8 /\ bytes_ok (lg_auth l) /\ zlen (lg_auth l) = 16 /\ is_byte (lg_mode l) /\
  is_byte (lg_version l) /\ 0 <= lg_timestamp l < 2 ^ 32.
Proof.
  intros H E. unfold Login_Decode in E.
  apply bind_ok in E as (a & A & E). apply bind_ok in E as (au & B & E). apply bind_ok in E as (m & M & E).
  apply bind_ok in E as (t & D & E). apply bind_ok in E as (v & V & E). injection E as <-.
  cbn [lg_clientID lg_auth lg_mode lg_version lg_timestamp].
  split; [apply slice_len in A; lia|]. split; [eapply slice_bytes; eauto|]. split; [apply slice_len in B; lia|].
  split; [eapply at_byte; eauto|]. split; [eapply at_byte; eauto|]. eapply get_be_range; eauto.
Qed.
Lemma Login_Decode_pieces seq a au m t v : zlen a = 8 -> zlen au = 16 -> 0 <= t < 2 ^ 32 ->
  Login_Decode seq (a ++ au ++ [m] ++ be4 t ++ [v]) = Ok (Login (CHead 42 SM_LOGIN seq) a au m t v []).
Proof.
  intros A B T. unfold Login_Decode.
  assert (L : zlen (a ++ au ++ [m] ++ be4 t ++ [v]) = 30) by (rewrite !zlen_app, be4_is, zlen_be; change (zlen [m]) with 1; change (zlen [v]) with 1; lia).
  rewrite L. rewrite slice_app_l by lia. cbn [bind].
  rewrite slice_app_r by lia. rewrite A. rewrite slice_app_l by lia. cbn [bind].
  rewrite at_app_r by lia. rewrite A. rewrite at_app_r by lia. rewrite B. change (24 - 8 - 16) with 0.
  cbn [app]. rewrite at_here. cbn [bind].
  rewrite get_be_app_r by lia. rewrite A. rewrite get_be_app_r by lia. rewrite B.
  change (m :: be4 t ++ [v]) with ([m] ++ be4 t ++ [v]). rewrite get_be_app_r by (cbn; lia).
  change (25 - 8 - 16 - zlen [m]) with 0. change (29 - 8 - 16 - zlen [m]) with 4.
  rewrite be4_is. rewrite get_be_here by (rewrite zlen_be; reflexivity). cbn [bind].
  rewrite at_app_r by lia. rewrite A. rewrite at_app_r by lia. rewrite B. rewrite at_app_r by (cbn; lia).
  change (29 - 8 - 16 - zlen [m]) with 4. rewrite at_app_r by (rewrite zlen_be; lia). rewrite zlen_be.
  change (4 - Z.of_nat 4) with 0. rewrite at_here. cbn [bind].
  rewrite unbe_be_small by (change (256 ^ Z.of_nat 4) with (2 ^ 32); lia). reflexivity.
Qed.
Lemma i8_back m : is_byte m -> i8 m mod 256 = m.
Proof. unfold is_byte, i8, u8. intros H. rewrite (Z.mod_small m) by lia. destruct (m <? 128); lia. Qed.
Theorem C87_refuted_replay_smgp : forall md5 names find ls ls' over sent k lines seq',
  session_fields ls -> bytes_ok (pk_body k) ->
  login_lines P_SMGP md5 names find ls ls' None over sent k = Ok lines ->
  exists l x x', In l lines /\ ln_level l = LInfo /\
    Login_Decode (pk_seq k) (pk_body k) = Ok x /\ Login_Decode seq' (again_smgp (ln_fields l)) = Ok x' /\
    lg_clientID x' = lg_clientID x /\
    forall ac, fst (Login_Check md5 x' ac) = fst (Login_Check md5 x ac).
Proof.
  intros md5 names find ls ls' over sent k lines seq' HS HB E. unfold login_lines in E. cbn [decode_login] in E.
  destruct (Login_Decode (pk_seq k) (pk_body k)) as [x|e|] eqn:D; cbn [bind] in E.
  - destruct (Login_Decode_facts _ _ _ HB D) as (F1 & F2 & F3 & F4 & F5 & F6).
    destruct (login_check md5 (LSmgp x) _). injection E as <-.
    exists (Line LInfo (ls ++ Login_Log x)), x,
      (Login (CHead 42 SM_LOGIN seq') (lg_clientID x) (lg_auth x) (lg_mode x) (lg_timestamp x) (lg_version x) []).
    split; [right; left; reflexivity|]. split; [reflexivity|]. split; [reflexivity|].
    cbn [ln_fields]. split; [|split; [reflexivity|]].
    + unfold again_smgp. rewrite !value_of_session by (auto; apply not_session; reflexivity).
      unfold Login_Log, head_Log. cbn [app value_of String.eqb Ascii.eqb Bool.eqb].
      rewrite i8_back by auto. unfold octets_of, text_of, hex1, u8. unfold is_byte in F5.
      rewrite (Z.mod_small (lg_version x)) by lia.
      rewrite !hex_read_bytes; [|repeat constructor; unfold is_byte; lia|auto].
      destruct (TimeStamp2Str_spec (lg_timestamp x) F6) as (_ & _ & R). rewrite R.
      exact (Login_Decode_pieces seq' (lg_clientID x) (lg_auth x) (lg_mode x) (lg_timestamp x) (lg_version x) F1 F3 F6).
    + intros [ac|]; [|reflexivity]. unfold Login_Check. cbn [lg_version lg_auth lg_timestamp].
      destruct (negb _); [reflexivity|]. destruct (beqb _ _); reflexivity.
  - exfalso. unfold Login_Decode in D.
    repeat (match type of D with bind ?x _ = _ => destruct x eqn:?; cbn [bind] in D end; try discriminate);
    injection D as ->;
    match goal with X : slice _ _ _ = Err _ |- _ => unfold slice in X; destruct (_ && _); discriminate
                  | X : at_ _ _ = Err _ |- _ => exact (at_noerr _ _ _ X)
                  | X : get_be _ _ _ _ = Err _ |- _ => unfold get_be in X; unfold slice in X; destruct (_ && _); cbn [bind] in X; [destruct (_ <=? _)|]; discriminate end.
  - discriminate.
Qed.

(** Proved for SGIP above debug level when the pool accepts: two bind packets that differ only in the password and get
    the same verdict leave the same lines.  (Missing: debug level and the pool's refusal, refuted above.) *)
Theorem C87_password_partial : forall md5 names find ls ls' over sent k k' b b' lines lines',
  pk_cmd k' = pk_cmd k -> pk_seq k' = pk_seq k -> zlen (pk_body k') = zlen (pk_body k) ->
  firstn 25 (pk_body k') = firstn 25 (pk_body k) ->
  Bind_Decode (pk_seq k) (pk_body k) = Ok b -> Bind_Decode (pk_seq k') (pk_body k') = Ok b' ->
  (Bind_Check b (find (bd_name b)) = 0 <-> Bind_Check b' (find (bd_name b')) = 0) ->
  login_lines P_SGIP md5 names find ls ls' None over sent k = Ok lines ->
  login_lines P_SGIP md5 names find ls ls' None over sent k' = Ok lines' ->
  filter above_debug lines' = filter above_debug lines.
Proof.
  intros md5 names find ls ls' over sent k k' b b' lines lines' HC HQ HL HF D D' V E E'.
  assert (X : bd_h b' = bd_h b /\ bd_type b' = bd_type b /\ bd_name b' = bd_name b).
  { unfold Bind_Decode in D, D'.
    assert (S : forall lo hi x x', 0 <= lo -> hi <= 25 -> slice (pk_body k) lo hi = Ok x -> slice (pk_body k') lo hi = Ok x' -> x' = x).
    { intros lo hi x x' L1 L2 A A'. rewrite (slice_cut _ _ _ _ A), (slice_cut _ _ _ _ A').
      assert (G : forall f : bytes, firstn (Z.to_nat (hi - lo)) (skipn (Z.to_nat lo) f)
                  = firstn (Z.to_nat (hi - lo)) (skipn (Z.to_nat lo) (firstn 25 f))).
      { intros f. rewrite skipn_firstn_comm, firstn_firstn. f_equal. lia. }
      rewrite (G (pk_body k)), (G (pk_body k')), HF. reflexivity. }
    apply bind_ok in D as (x1 & A1 & D). apply bind_ok in D' as (y1 & B1 & D').
    apply bind_ok in D as (x2 & A2 & D). apply bind_ok in D' as (y2 & B2 & D').
    apply bind_ok in D as (x3 & A3 & D). apply bind_ok in D' as (y3 & B3 & D').
    apply bind_ok in D as (x4 & A4 & D). apply bind_ok in D' as (y4 & B4 & D').
    apply bind_ok in D as (x5 & A5 & D). apply bind_ok in D' as (y5 & B5 & D').
    injection D as <-. injection D' as <-. cbn [bd_h bd_type bd_name].
    assert (G : forall lo x y, 0 <= lo -> lo + 4 <= 25 -> get_be 4 (pk_body k) lo (lo + 4) = Ok x ->
              get_be 4 (pk_body k') lo (lo + 4) = Ok y -> y = x).
    { intros lo x y L1 L2 A B. unfold get_be in A, B. apply bind_ok in A as (s & A & A'). apply bind_ok in B as (t & B & B').
      rewrite (S _ _ _ _ L1 L2 A B) in B'. congruence. }
    assert (AT : forall x y, at_ (pk_body k) 8 = Ok x -> at_ (pk_body k') 8 = Ok y -> y = x).
    { intros x y A B. unfold at_ in A, B. destruct (_ && _); [|discriminate]. destruct (_ && _); [|discriminate].
      rewrite <- (firstn_skipn 25 (pk_body k)) in A. rewrite <- (firstn_skipn 25 (pk_body k')) in B.
      assert (LK : (25 <= length (pk_body k))%nat).
      { assert (Q : exists s, slice (pk_body k) 25 41 = Ok s) by eauto. apply slice_ok_iff in Q. unfold zlen in *. lia. }
      assert (LK' : (25 <= length (pk_body k'))%nat) by (unfold zlen in *; lia).
      rewrite nth_error_app1 in A by (rewrite firstn_length; lia). rewrite nth_error_app1 in B by (rewrite firstn_length; lia).
      rewrite HF in B. destruct (nth_error _ _); congruence. }
    rewrite (S 9 25 _ _ ltac:(lia) ltac:(lia) A4 B4), (AT _ _ A3 B3),
      (G 0 _ _ ltac:(lia) ltac:(lia) A1 B1), (G 4 _ _ ltac:(lia) ltac:(lia) A2 B2), HL, HQ. auto. }
  destruct X as (X1 & X2 & X3).
  unfold login_lines in E, E'. cbn [decode_login] in E, E'. rewrite D in E. rewrite D' in E'. cbn [bind login_key login_check] in E, E'.
  injection E as <-. injection E' as <-. cbn [filter above_debug traffic_line ln_level check_lines app].
  assert (W : Bind_Check b' (find (bd_name b')) = Bind_Check b (find (bd_name b))).
  { revert V. unfold Bind_Check. destruct (find (bd_name b)), (find (bd_name b'));
      repeat match goal with |- context [if ?x then _ else _] => destruct x end; intros V; try reflexivity;
      first [destruct V as [V _]; specialize (V eq_refl); lia|destruct V as [_ V]; specialize (V eq_refl); lia|idtac]. }
  rewrite W. f_equal.
  - unfold login_Log, Bind_Log. rewrite X1, X2, X3. reflexivity.
  - destruct sent; cbn [filter above_debug ln_level answer_Log]; [|reflexivity].
    unfold Bind_ToResponse. rewrite X1. reflexivity.
Qed.

(** The shared secret of an account.  Two accounts that agree in everything a login looks at but the secret, where the
    digest does not tell the secrets apart ... *)
Definition same_but_secret (md5 : bytes -> bytes) (a a' : authconf) : Prop :=
  ac_ClientId a' = ac_ClientId a /\ ac_LoginName a' = ac_LoginName a /\ ac_Version a' = ac_Version a /\
  forall x y, md5 (x ++ ac_SharedSecret a' ++ y) = md5 (x ++ ac_SharedSecret a ++ y).
Definition same_accounts (md5 : bytes -> bytes) (find find' : bytes -> option authconf) : Prop :=
  forall n, match find n, find' n with
            | None, None => True
            | Some a, Some a' => same_but_secret md5 a a'
            | _, _ => False
            end.
(** ... leave the same lines at every level, debug included: the secret reaches the log only as a digest. *)
Theorem C87_secret : forall p md5 names find find' ls ls' pool over sent k,
  p <> P_SGIP -> same_accounts md5 find find' ->
  login_lines p md5 names find' ls ls' pool over sent k = login_lines p md5 names find ls ls' pool over sent k.
Proof.
  intros p md5 names find find' ls ls' pool over sent k HP HA. unfold login_lines.
  destruct (decode_login p k) as [l| |] eqn:D; [|reflexivity..].
  destruct pool; [reflexivity|]. specialize (HA (login_key l)).
  destruct (find (login_key l)) as [a|], (find' (login_key l)) as [a'|]; try contradiction; [|reflexivity].
  destruct HA as (A & N & V & M). destruct l as [c|b|x].
  - cbn [login_check check_lines]. unfold Connect_Check. rewrite V, A.
    destruct (negb _); [reflexivity|].
    rewrite app_assoc, M, <- app_assoc. destruct (beqb _ _); [|reflexivity].
    do 4 f_equal. destruct sent; [|reflexivity]. do 2 f_equal. unfold answer_Log, ConnectResp_Log, Connect_ToResponse.
    cbn [cn_version cn_h cn_sourceAddr cn_secret cr_h cr_status cr_auth cr_version].
    do 6 f_equal. set (bs := if is_v3 (cn_version c) then _ else _).
    rewrite <- (app_nil_r (ac_SharedSecret a')), <- (app_nil_r (ac_SharedSecret a)), app_assoc, M, <- app_assoc. reflexivity.
  - exfalso. apply HP. unfold decode_login in D.
    destruct p; [|reflexivity|]; match type of D with bind ?x _ = _ => destruct x; discriminate end.
  - cbn [login_check check_lines]. unfold Login_Check. rewrite V, A.
    destruct (negb _); [reflexivity|].
    rewrite app_assoc, M, <- app_assoc. destruct (beqb _ _); [|reflexivity].
    do 4 f_equal. destruct sent; [|reflexivity]. do 2 f_equal. unfold answer_Log, LoginRsp_Log, Login_ToResponse.
    cbn [lg_version lg_h lg_clientID lg_secret lr_h lr_status lr_auth lr_version].
    do 6 f_equal. set (bs := u8 _).
    rewrite <- (app_nil_r (ac_SharedSecret a')), <- (app_nil_r (ac_SharedSecret a)), app_assoc, M, <- app_assoc. reflexivity.
Qed.
(** SGIP sends the secret itself: of the stored one the log tells only whether it matched. *)
Theorem C87_secret_sgip : forall md5 names find find' ls ls' pool over sent k,
  (forall b, Bind_Decode (pk_seq k) (pk_body k) = Ok b ->
     Bind_Check b (find' (bd_name b)) = Bind_Check b (find (bd_name b))) ->
  login_lines P_SGIP md5 names find' ls ls' pool over sent k = login_lines P_SGIP md5 names find ls ls' pool over sent k.
Proof.
  intros md5 names find find' ls ls' pool over sent k H. unfold login_lines. cbn [decode_login].
  destruct (Bind_Decode _ _) as [b| |] eqn:D; cbn [bind]; [|reflexivity..].
  destruct pool; [reflexivity|]. cbn [login_check login_key check_lines]. rewrite (H b eq_refl). reflexivity.
Qed.
(** The client's line about its own login. *)
Theorem C87_client : forall p md5 a a' q sq ts tsn,
  ac_ClientId a' = ac_ClientId a -> ac_Version a' = ac_Version a ->
  (p <> P_SGIP -> forall x y, md5 (x ++ ac_SharedSecret a' ++ y) = md5 (x ++ ac_SharedSecret a ++ y)) ->
  client_login_line p md5 a' q sq ts tsn = client_login_line p md5 a q sq ts tsn.
Proof.
  intros p md5 a a' q sq ts tsn A V M. unfold client_login_line. f_equal. destruct p.
  - unfold NewConnect. rewrite A, V, app_assoc, M by discriminate. rewrite <- app_assoc. reflexivity.
  - unfold NewBind, Bind_Log. cbn. rewrite A. reflexivity.
  - unfold NewLogin. rewrite A, V, app_assoc, M by discriminate. rewrite <- app_assoc. reflexivity.
Qed.

(** ** C88 A log line about a message shows at most the first six octets of its text *)
(** The line's field "msgContent" is the hexadecimal dump of the first six octets (of all, if there are fewer) and three dots. *)
Definition shows_six (fs : list field) (text : bytes) : Prop :=
  exists h, value_of "msgContent"%string fs = Some (FS (h ++ [46; 46; 46])) /\ hex_read h = Some (firstn 6 text).
(** The same packet with another text. *)
Definition set_csub (s : submit) (t : bytes) : submit :=
  Submit (sb_h s) (sb_msgId s) (sb_pkTotal s) (sb_pkNumber s) (sb_registeredDel s) (sb_msgLevel s) (sb_serviceId s)
    (sb_feeUsertype s) (sb_feeTerminalId s) (sb_feeTerminalType s) (sb_tpPid s) (sb_tpUdhi s) (sb_msgFmt s)
    (sb_msgSrc s) (sb_feeType s) (sb_feeCode s) (sb_validTime s) (sb_atTime s) (sb_srcId s) (sb_destUsrTl s)
    (sb_destTerminalId s) (sb_termIds s) (sb_destTerminalType s) (sb_msgLength s) t (sb_linkID s) (sb_version s).
Definition set_ssub (s : ssubmit) (t : bytes) : ssubmit :=
  SSubmit (ss_h s) (ss_SPNumber s) (ss_ChargeNumber s) (ss_UserCount s) (ss_UserNumber s) (ss_CorpId s)
    (ss_ServiceType s) (ss_FeeType s) (ss_FeeValue s) (ss_GivenValue s) (ss_AgentFlag s) (ss_Morelate s)
    (ss_Priority s) (ss_ExpireTime s) (ss_ScheduleTime s) (ss_ReportFlag s) (ss_TpPid s) (ss_TpUdhi s)
    (ss_Coding s) (ss_MessageType s) (ss_MessageLength s) t (ss_Reserve s).
Definition set_msub (s : msubmit) (t : bytes) : msubmit :=
  MSubmit (ms_h s) (ms_msgType s) (ms_needReport s) (ms_priority s) (ms_serviceID s) (ms_feeType s) (ms_feeCode s)
    (ms_fixedFee s) (ms_msgFormat s) (ms_validTime s) (ms_atTime s) (ms_srcTermID s) (ms_chargeTermID s)
    (ms_count s) (ms_destTermID s) (ms_msgLength s) t (ms_reserve s) (ms_tlv s) (ms_version s).
Definition set_cdly (s : delivery) (t : bytes) : delivery :=
  Delivery (dl_h s) (dl_msgId s) (dl_destId s) (dl_serviceId s) (dl_tpPid s) (dl_tpUdhi s) (dl_msgFmt s)
    (dl_srcTerminalId s) (dl_srcTerminalType s) (dl_registeredDelivery s) (dl_msgLength s) t (dl_report s)
    (dl_linkID s) (dl_version s).
Definition set_sdly (s : sdeliver) (t : bytes) : sdeliver :=
  SDeliver (sd_h s) (sd_UserNumber s) (sd_SPNumber s) (sd_TpPid s) (sd_TpUdhi s) (sd_Coding s) (sd_MessageLength s)
    t (sd_Reserve s).
Definition set_mdly (s : mdeliver) (t : bytes) : mdeliver :=
  MDeliver (md_h s) (md_msgId s) (md_isReport s) (md_msgFormat s) (md_recvTime s) (md_srcTermID s)
    (md_destTermID s) (md_msgLength s) t (md_bytes s) (md_report s) (md_reserve s) (md_version s).

Lemma shown_is c : shown c = Ok (hex_bytes (firstn 6 c) ++ [46; 46; 46]).
Proof.
  unfold shown. unfold slice, zlen. destruct (6 <? Z.of_nat (length c)) eqn:E.
  - replace ((0 <=? 0) && (0 <=? 6) && (6 <=? Z.of_nat (length c))) with true by lia. cbn [bind]. rewrite skipn_O. reflexivity.
  - replace ((0 <=? 0) && (0 <=? Z.of_nat (length c)) && (Z.of_nat (length c) <=? Z.of_nat (length c))) with true by lia.
    cbn [bind]. rewrite skipn_O. rewrite !firstn_all2 by lia. reflexivity.
Qed.
Lemma bytes_ok_firstn n c : bytes_ok c -> bytes_ok (firstn n c).
Proof. intros H. unfold bytes_ok in *. rewrite <- (firstn_skipn n c) in H. apply Forall_app in H. tauto. Qed.
Ltac six := eexists; split; [reflexivity|apply hex_read_bytes, bytes_ok_firstn; assumption].
Theorem C88_shown_partial :
  (forall s fs, bytes_ok (sb_msgContent s) -> Submit_Log s = Ok fs -> shows_six fs (sb_msgContent s)) /\
  (forall s fs, bytes_ok (ss_Content s) -> SSubmit_Log s = Ok fs -> shows_six fs (ss_Content s)) /\
  (forall s fs, bytes_ok (ms_content s) -> MSubmit_Log s = Ok fs -> shows_six fs (ms_content s)) /\
  (forall d fs, dl_registeredDelivery d <> 1 -> bytes_ok (dl_msgContent d) -> Delivery_Log d = Ok fs -> shows_six fs (dl_msgContent d)) /\
  (forall d fs, bytes_ok (sd_Content d) -> SDeliver_Log d = Ok fs -> shows_six fs (sd_Content d)) /\
  (forall d fs, md_isReport d <> 1 -> bytes_ok (md_content d) -> MDeliver_Log d = Ok fs -> shows_six fs (md_content d)).
Proof.
  repeat match goal with |- _ /\ _ => split end.
  - intros s fs H E. unfold Submit_Log in E. rewrite shown_is in E. cbn [bind] in E.
    apply bind_ok in E as (ids & _ & E). injection E as <-. six.
  - intros s fs H E. unfold SSubmit_Log in E. rewrite shown_is in E. cbn [bind] in E. injection E as <-.
    unfold shead_Log. destruct (sh_seq _) as [[? ?] ?]. six.
  - intros s fs H E. unfold MSubmit_Log in E. rewrite shown_is in E. cbn [bind] in E. injection E as <-. six.
  - intros s fs N H E. unfold Delivery_Log in E. replace (dl_registeredDelivery s =? 1) with false in E by lia.
    rewrite shown_is in E. cbn [bind] in E. injection E as <-. six.
  - intros s fs H E. unfold SDeliver_Log in E. rewrite shown_is in E. cbn [bind] in E. injection E as <-.
    unfold shead_Log. destruct (sh_seq _) as [[? ?] ?]. six.
  - intros s fs N H E. unfold MDeliver_Log in E. replace (md_isReport s =? 1) with false in E by lia.
    rewrite shown_is in E. cbn [bind] in E. injection E as <-. six.
Qed.
(** Nothing else of the line depends on the text: any other text with the same first six octets gives the same line. *)
Theorem C88_rest_hidden_partial :
  (forall s t, firstn 6 t = firstn 6 (sb_msgContent s) -> Submit_Log (set_csub s t) = Submit_Log s) /\
  (forall s t, firstn 6 t = firstn 6 (ss_Content s) -> SSubmit_Log (set_ssub s t) = SSubmit_Log s) /\
  (forall s t, firstn 6 t = firstn 6 (ms_content s) -> MSubmit_Log (set_msub s t) = MSubmit_Log s) /\
  (forall d t, firstn 6 t = firstn 6 (dl_msgContent d) -> Delivery_Log (set_cdly d t) = Delivery_Log d) /\
  (forall d t, firstn 6 t = firstn 6 (sd_Content d) -> SDeliver_Log (set_sdly d t) = SDeliver_Log d) /\
  (forall d t, firstn 6 t = firstn 6 (md_content d) -> MDeliver_Log (set_mdly d t) = MDeliver_Log d).
Proof.
  repeat match goal with |- _ /\ _ => split end; intros s t H.
  - unfold Submit_Log. rewrite !shown_is. cbn [set_csub sb_msgContent]. rewrite H. reflexivity.
  - unfold SSubmit_Log. rewrite !shown_is. cbn [set_ssub ss_Content]. rewrite H. reflexivity.
  - unfold MSubmit_Log. rewrite !shown_is. cbn [set_msub ms_content]. rewrite H. reflexivity.
  - unfold Delivery_Log. rewrite !shown_is. cbn [set_cdly dl_msgContent]. rewrite H. reflexivity.
  - unfold SDeliver_Log. rewrite !shown_is. cbn [set_sdly sd_Content]. rewrite H. reflexivity.
  - unfold MDeliver_Log. rewrite !shown_is. cbn [set_mdly md_content]. rewrite H. reflexivity.
Qed.
(** Of a part of a split text the six octets are the concatenation header: none of the text is shown. *)
Theorem C88_parts : forall g content pkgLen parts k p, 6 < pkgLen -> pkgLen <= zlen content ->
  ToTPUDHISlices g content pkgLen = Ok parts -> zlen parts <= 255 -> nth_error parts k = Some p ->
  firstn 6 p = [5; 0; 3; g; zlen parts; Z.of_nat k + 1] /\
  (forall s, SSubmit_Log (set_ssub s p) = SSubmit_Log (set_ssub s [5; 0; 3; g; zlen parts; Z.of_nat k + 1])) /\
  (forall m, MSubmit_Log (set_msub m p) = MSubmit_Log (set_msub m [5; 0; 3; g; zlen parts; Z.of_nat k + 1])) /\
  (forall c, Submit_Log (set_csub c p) = Submit_Log (set_csub c [5; 0; 3; g; zlen parts; Z.of_nat k + 1])).
Proof.
  intros g content pkgLen parts k p H1 H2 E H3 Hk.
  destruct (split_parts g content pkgLen parts H1 H2 E H3 k p Hk) as (body & Hp & _).
  assert (F : firstn 6 p = [5; 0; 3; g; zlen parts; Z.of_nat k + 1]) by (rewrite Hp; reflexivity).
  split; [exact F|]. split; [intros s|split; [intros m|intros c]].
  - unfold SSubmit_Log. rewrite !shown_is. cbn [set_ssub ss_Content]. rewrite F. reflexivity.
  - unfold MSubmit_Log. rewrite !shown_is. cbn [set_msub ms_content]. rewrite F. reflexivity.
  - unfold Submit_Log. rewrite !shown_is. cbn [set_csub sb_msgContent]. rewrite F. reflexivity.
Qed.
(** Refuted: handling any submit the server writes, before anything else, the whole packet to the debug log ... *)
Theorem C88_refuted_debug : forall pr ver names ls pool sent k lines,
  session_fields ls -> bytes_ok (pk_body k) -> submit_lines pr ver names ls pool sent k = Ok lines ->
  exists l r, lines = l :: r /\ ln_level l = LDebug /\ shows_packet l (pk_body k).
Proof.
  intros pr ver names ls pool sent k lines HS HB E.
  assert (G : exists r, lines = traffic_line (pr_p pr) ls k :: r).
  { unfold submit_lines in E. destruct (decode_submit _ _ _); [|injection E as <-; eauto|discriminate].
    destruct pool; [injection E as <-; eauto|]. apply bind_ok in E as (f & _ & E). injection E as <-. eauto. }
  destruct G as (r & ->). exists (traffic_line (pr_p pr) ls k), r. split; [reflexivity|]. split; [reflexivity|].
  exists (hex_bytes (pk_body k)). split; [|apply hex_read_bytes; auto].
  unfold traffic_line, Packet2HexLogStr. cbn [ln_fields]. rewrite value_of_session by (auto; apply not_session; reflexivity).
  reflexivity.
Qed.
(** ... and, when the pool refuses the work, to the error log. *)
Theorem C88_refuted_pool : forall pr ver names ls e sent k r,
  session_fields ls -> bytes_ok (pk_body k) -> decode_submit pr ver k = Ok r ->
  exists l l', submit_lines pr ver names ls (Some e) sent k = Ok [l; l'] /\ ln_level l' = LError /\ shows_packet l' (pk_body k).
Proof.
  intros pr ver names ls e sent k r HS HB E. unfold submit_lines. rewrite E.
  eexists _, _. split; [reflexivity|]. split; [reflexivity|].
  exists (hex_bytes (pk_body k)). split; [|apply hex_read_bytes; auto].
  unfold pool_error_line, Packet2HexLogStr. cbn [ln_fields]. rewrite value_of_session by (auto; apply not_session; reflexivity).
  reflexivity.
Qed.

(** ** C89 Making the log line of a packet never fails *)
Lemma b2ss_ok inp pl part : 0 < pl -> forall i, (Z.of_nat i + Z.of_nat part) * pl <= zlen inp ->
  exists l, b2ss_loop inp pl i part = Ok l.
Proof.
  intros HP. induction part as [|n IH]; intros i H; [eexists; reflexivity|]. cbn [b2ss_loop].
  destruct (proj2 (slice_ok_iff inp (Z.of_nat i * pl) ((Z.of_nat i + 1) * pl))) as (s & ->); [nia|]. cbn [bind].
  destruct (IH (S i)) as (l & ->); [nia|]. eexists; reflexivity.
Qed.
Lemma Bytes2StringSlice_total inp pl : 0 < pl -> exists l, Bytes2StringSlice inp pl = Ok l.
Proof.
  intros HP. unfold Bytes2StringSlice. destruct (zlen inp <=? pl); [eexists; reflexivity|].
  replace (pl =? 0) with false by lia. apply b2ss_ok; auto.
  pose proof (zlen_nonneg inp). rewrite Z2Nat.id by (apply Z.div_pos; lia). pose proof (Z.mul_div_le (zlen inp) pl HP). lia.
Qed.
Theorem C89_submits : forall r, exists fs, request_Log r = Ok fs.
Proof.
  intros [s|s|s]; cbn [request_Log].
  - unfold Submit_Log. rewrite shown_is. cbn [bind].
    destruct (Bytes2StringSlice_total (sb_termIds s) (if is_v3 (sb_version s) then 32 else 21)) as (l & ->);
      [destruct (is_v3 _); lia|]. eexists; reflexivity.
  - unfold SSubmit_Log. rewrite shown_is. eexists; reflexivity.
  - unfold MSubmit_Log. rewrite shown_is. eexists; reflexivity.
Qed.
(** So what the server does with a submit (Log runs before the answer is made) never ends in the logging. *)
Theorem C89_handled : forall pr ver names ls pool sent k r, decode_submit pr ver k = Ok r ->
  exists lines, submit_lines pr ver names ls pool sent k = Ok lines.
Proof.
  intros pr ver names ls pool sent k r E. unfold submit_lines. rewrite E. destruct pool; [eexists; reflexivity|].
  destruct (C89_submits r) as (f & ->). eexists; reflexivity.
Qed.
(** A delivery fails to log exactly when it is marked as a report and has none; no packet received is like that. *)
Theorem C89_deliveries :
  (forall d, (exists fs, Delivery_Log d = Ok fs) <-> ~ (dl_registeredDelivery d = 1 /\ dl_report d = None)) /\
  (forall d, exists fs, SDeliver_Log d = Ok fs) /\
  (forall d, (exists fs, MDeliver_Log d = Ok fs) <-> ~ (md_isReport d = 1 /\ md_report d = None)) /\
  (forall ver seq f d, Delivery_Decode ver seq f = Ok d -> exists fs, Delivery_Log d = Ok fs) /\
  (forall gbd ver seq f d, MDeliver_Decode gbd ver seq f = Ok d -> exists fs, MDeliver_Log d = Ok fs).
Proof.
  assert (C : forall d, (exists fs, Delivery_Log d = Ok fs) <-> ~ (dl_registeredDelivery d = 1 /\ dl_report d = None)).
  { intros d. unfold Delivery_Log. destruct (dl_registeredDelivery d =? 1) eqn:E.
    - destruct (dl_report d) as [r|]; cbn [bind]; split.
      + intros _ [_ H]. discriminate.
      + eexists; reflexivity.
      + intros (fs & H). discriminate.
      + intros H. destruct H. split; [lia|reflexivity].
    - rewrite shown_is. split; [intros _ [H _]; lia|eexists; reflexivity]. }
  assert (M : forall d, (exists fs, MDeliver_Log d = Ok fs) <-> ~ (md_isReport d = 1 /\ md_report d = None)).
  { intros d. unfold MDeliver_Log. destruct (md_isReport d =? 1) eqn:E.
    - destruct (md_report d) as [r|]; cbn [bind]; split.
      + intros _ [_ H]. discriminate.
      + eexists; reflexivity.
      + intros (fs & H). discriminate.
      + intros H. destruct H. split; [lia|reflexivity].
    - rewrite shown_is. split; [intros _ [H _]; lia|eexists; reflexivity]. }
  split; [exact C|]. split; [intros d; unfold SDeliver_Log; rewrite shown_is; eexists; reflexivity|]. split; [exact M|]. split.
  - intros ver seq f d E. apply C. intros [A B]. unfold Delivery_Decode in E. cbv zeta in E.
    do 6 (apply bind_ok in E as (? & _ & E)). apply bind_ok in E as ([[? ?] ?] & _ & E).
    apply bind_ok in E as (rd & _ & E). do 2 (apply bind_ok in E as (? & _ & E)).
    apply bind_ok in E as ([c r] & R & E). apply bind_ok in E as (? & _ & E). injection E as <-. cbn in A, B. subst rd r.
    rewrite Z.eqb_refl in R. do 2 (apply bind_ok in R as (? & _ & R)). discriminate.
  - intros gbd ver seq f d E. apply M. intros [A B]. unfold MDeliver_Decode in E.
    apply bind_ok in E as (? & _ & E). apply bind_ok in E as (ir & _ & E). do 5 (apply bind_ok in E as (? & _ & E)).
    apply bind_ok in E as ([c r] & R & E). injection E as <-. cbn in A, B. subst ir r.
    rewrite Z.eqb_refl in R. do 2 (apply bind_ok in R as (? & _ & R)). discriminate.
Qed.
(** The deliveries and reports the server makes itself can be logged. *)
Theorem C89_built :
  (forall ac phone msg dest sid seq nid, exists fs, Delivery_Log (NewDelivery ac phone msg dest sid seq nid) = Ok fs) /\
  (forall s msgId nseq nid nrep sub done, exists fs, Delivery_Log (ToDeliveryReport s msgId nseq nid nrep sub done) = Ok fs) /\
  (forall gbe ac phone dest txt seq id now, exists fs, MDeliver_Log (smgp_NewDeliver gbe ac phone dest txt seq id now) = Ok fs) /\
  (forall ac mt seq msgId id now sec d1 d2 d, smgp_NewDeliveryReport ac mt seq msgId id now sec d1 d2 = Ok d ->
     exists fs, MDeliver_Log d = Ok fs).
Proof.
  destruct C89_deliveries as (C & _ & M & _). repeat match goal with |- _ /\ _ => split end; intros.
  - apply C. unfold NewDelivery. destruct (setMsgContent msg) as [[? ?] ?]. cbn. lia.
  - apply C. cbn. intros [_ H]. discriminate.
  - apply M. cbn. lia.
  - match goal with X : smgp_NewDeliveryReport _ _ _ _ _ _ _ _ _ = Ok _ |- _ =>
      unfold smgp_NewDeliveryReport in X; apply bind_ok in X as (p & _ & X); injection X as <- end.
    apply M. cbn. intros [_ H]. discriminate.
Qed.
(** An SGIP report takes the sequence of the submit as a slice: its line is made exactly when the slice has three numbers
    or more.  Every report received has; a report built from a shorter slice panics in Log. *)
Theorem C89_report_partial : forall names r,
  ((exists fs, SReport_Log names r = Ok fs) <-> 3 <= zlen (st_MtSequence r)) /\
  forall cid f, SReport_Decode cid f = Ok r -> exists fs, SReport_Log names r = Ok fs.
Proof.
  intros names r.
  assert (A : (exists fs, SReport_Log names r = Ok fs) <-> 3 <= zlen (st_MtSequence r)).
  { unfold SReport_Log. destruct (st_MtSequence r) as [|x [|y [|z l]]].
    - split; [intros (fs & H); discriminate|cbn; lia].
    - split; [intros (fs & H); discriminate|cbn; lia].
    - split; [intros (fs & H); discriminate|cbn; lia].
    - split; [intros _; unfold zlen; cbn [length]; lia|intros _].
      assert (B : forall i v, nth_error (x :: y :: z :: l) i = Some v -> at_ (x :: y :: z :: l) (Z.of_nat i) = Ok v).
      { intros i v H. unfold at_. assert (i < length (x :: y :: z :: l))%nat by (apply nth_error_Some; congruence).
        unfold zlen. replace ((0 <=? Z.of_nat i) && (Z.of_nat i <? Z.of_nat (length (x :: y :: z :: l)))) with true by lia.
        rewrite Nat2Z.id, H. reflexivity. }
      pose proof (B 1%nat y eq_refl) as B1. pose proof (B 2%nat z eq_refl) as B2. pose proof (B 0%nat x eq_refl) as B0.
      cbn [Z.of_nat] in *. change (Z.pos (Pos.of_succ_nat 0)) with 1 in *. change (Z.pos (Pos.of_succ_nat 1)) with 2 in *.
      rewrite B1, B2, B0. eexists; reflexivity. }
  split; [exact A|]. intros cid f E. apply A. unfold SReport_Decode in E.
  do 9 (apply bind_ok in E as (? & _ & E)). injection E as <-. cbn. lia.
Qed.
Theorem C89_refuted_report : forall names phone mts status code q, zlen mts < 3 ->
  SReport_Log names (sgip_NewReport phone mts status code q) = Panic.
Proof.
  intros names phone mts status code q H. unfold SReport_Log, sgip_NewReport. cbn [st_MtSequence].
  destruct mts as [|x [|y [|z l]]]; [reflexivity..|]. unfold zlen in H. cbn [length] in H. lia.
Qed.

(** The recipients a line lists: its field "userNumber" cut at the commas. *)
Fixpoint at_commas (s : bytes) : list bytes :=
  match s with
  | [] => [[]]
  | c :: r => if c =? 44 then [] :: at_commas r
              else match at_commas r with [] => [[c]] | w :: ws => (c :: w) :: ws end
  end.
Definition recipients (fs : list field) : option (list bytes) :=
  match value_of "userNumber"%string fs with Some (FS v) => Some (at_commas v) | _ => None end.
Lemma at_commas_app w r : ~ In 44 w -> at_commas (w ++ 44 :: r) = w :: at_commas r.
Proof.
  induction w as [|c w IH]; intros H; [reflexivity|]. cbn [app at_commas].
  replace (c =? 44) with false by (cbn in H; lia). rewrite IH by (cbn in H; tauto). reflexivity.
Qed.
Lemma at_commas_word w : ~ In 44 w -> at_commas w = [w].
Proof.
  induction w as [|c w IH]; intros H; [reflexivity|]. cbn [at_commas].
  replace (c =? 44) with false by (cbn in H; lia). rewrite IH by (cbn in H; tauto). reflexivity.
Qed.
Lemma at_commas_join l : l <> [] -> Forall (fun w => ~ In 44 w) l -> at_commas (join_comma l) = l.
Proof.
  induction l as [|w [|v l] IH]; intros N H; [congruence| |]; inversion H; subst.
  - apply at_commas_word; auto.
  - change (join_comma (w :: v :: l)) with (w ++ 44 :: join_comma (v :: l)). rewrite at_commas_app by auto.
    rewrite IH by (auto; discriminate). reflexivity.
Qed.
(** The line about a submit the client built lists the recipients it was given, in order. *)
Theorem C89_recipients : forall phones, phones <> [] -> Forall (fun w => ~ In 44 w) phones ->
  (forall ac content seq ops vd g nxt n k s b fs,
     built_part ac phones content seq ops vd g nxt n k s b ->
     Forall (fits (if is_v3 (ac_Version ac) then 32 else 21)) phones ->
     Submit_Log s = Ok fs -> recipients fs = Some phones) /\
  (forall ac content ops vd g q msgs s fs, sgip_NewSubmit ac phones content ops vd g q = Ok msgs -> In s msgs ->
     SSubmit_Log s = Ok fs -> recipients fs = Some phones) /\
  (forall gbe ac content seq ops now g nxt msgs s fs, smgp_NewSubmit gbe ac phones content seq ops now g nxt = Ok msgs ->
     In s msgs -> MSubmit_Log s = Ok fs -> recipients fs = Some phones).
Proof.
  intros phones HN HC. repeat match goal with |- _ /\ _ => split end.
  - intros ac content seq ops vd g nxt n k s b fs HB HF E.
    destruct (built_part_inv _ _ _ _ _ _ _ _ _ _ _ _ HB) as (_ & B & _). unfold built_from in B.
    destruct B as (V & _ & _ & _ & I & _). unfold Submit_Log in E. rewrite shown_is in E. cbn [bind] in E. rewrite I, V in E.
    replace (if is_v3 (ac_Version ac) then 32 else 21) with (Z.of_nat (if is_v3 (ac_Version ac) then 32 else 21)) in E
      by (destruct (is_v3 _); reflexivity).
    rewrite Bytes2StringSlice_ids in E by (auto; destruct (is_v3 _); lia). cbn [bind] in E. injection E as <-.
    unfold recipients. cbn [value_of head_Log app String.eqb Ascii.eqb Bool.eqb]. rewrite at_commas_join; auto.
  - intros ac content ops vd g q msgs s fs E I L.
    assert (U : ss_UserNumber s = phones).
    { unfold sgip_NewSubmit in E. apply bind_ok in E as (parts & _ & E).
      assert (G : forall u f ps i, In s (sgip_parts (fun i b => sgip_part ac f phones vd u 1 (q i) b) i ps) -> ss_UserNumber s = phones).
      { intros u f. induction ps as [|p ps IH]; intros i H; [destruct H|]. destruct H as [<-|H]; [reflexivity|]. eauto. }
      destruct parts as [|b [|b' parts]]; injection E as <-; [destruct I|destruct I as [<-|[]]; reflexivity|exact (G (MsgFmt content) (LoadMtOptions ops) (b :: b' :: parts) 0 I)]. }
    unfold SSubmit_Log in L. rewrite shown_is, U in L. cbn [bind] in L. injection L as <-.
    unfold recipients, shead_Log. destruct (sh_seq _) as [[? ?] ?].
    cbn [value_of app String.eqb Ascii.eqb Bool.eqb]. rewrite at_commas_join; auto.
  - intros gbe ac content seq ops now g nxt msgs s fs E I L.
    assert (U : ms_destTermID s = phones).
    { unfold smgp_NewSubmit in E. destruct (gbe content) as [data|]; [|injection E as <-; destruct I].
      apply bind_ok in E as (parts & _ & E).
      assert (G : forall o t ps i, In s (sm_parts (fun q len ml b tl => sm_base ac phones q o now len ml b tl) (zlen phones) t seq nxt i ps) ->
                ms_destTermID s = phones).
      { intros o t. induction ps as [|p ps IH]; intros i H; [destruct H|]. destruct H as [<-|H]; [reflexivity|]. eauto. }
      destruct parts as [|b [|b' parts]]; injection E as <-; [destruct I|destruct I as [<-|[]]; reflexivity|exact (G (LoadMtOptions ops) (zlen (b :: b' :: parts)) (b :: b' :: parts) 0 I)]. }
    unfold MSubmit_Log in L. rewrite shown_is, U in L. cbn [bind] in L. injection L as <-.
    unfold recipients. cbn [value_of head_Log app String.eqb Ascii.eqb Bool.eqb]. rewrite at_commas_join; auto.
Qed.
(** The server's line about the same CMPP submit, once decoded (2.x: up to twelve recipients, see C34). *)
Theorem C89_recipients_received_partial : forall ac phones content seq ops vd g nxt n k s b seq' d fs,
  built_part ac phones content seq ops vd g nxt n k s b -> submit_fits s ->
  phones <> [] -> Forall (fun w => ~ In 44 w) phones ->
  (is_v3 (ac_Version ac) = true \/ zlen phones <= 12) ->
  Forall (fits (if is_v3 (ac_Version ac) then 32 else 21)) phones ->
  over_wire (Submit_Encode s) (Submit_Decode (sb_version s) seq') = Ok d ->
  Submit_Log d = Ok fs -> recipients fs = Some phones.
Proof.
  intros ac phones content seq ops vd g nxt n k s b seq' d fs HB HS HN HC HV HF E L.
  destruct (C34_numbers_partial _ _ _ _ _ _ _ _ _ _ _ _ seq' d HB HS HV HF E) as (_ & I).
  destruct (built_part_inv _ _ _ _ _ _ _ _ _ _ _ _ HB) as (_ & B & _). unfold built_from in B. destruct B as (V & _).
  assert (V' : sb_version d = sb_version s).
  { destruct (decode_built _ _ _ _ _ _ _ _ _ _ _ _ seq' HB HS HV) as (mk & E' & HM). rewrite E' in E.
    apply bind_ok in E as (c & _ & E). injection E as <-. destruct (HM c) as (S1 & _). unfold same_fields in S1. intuition. }
  unfold Submit_Log in L. rewrite shown_is in L. cbn [bind] in L. rewrite V', V in L.
  replace (if is_v3 (ac_Version ac) then 32 else 21) with (Z.of_nat (if is_v3 (ac_Version ac) then 32 else 21)) in L
    by (destruct (is_v3 _); reflexivity).
  rewrite I in L. cbn [bind] in L. injection L as <-.
  unfold recipients. cbn [value_of head_Log app String.eqb Ascii.eqb Bool.eqb]. rewrite at_commas_join; auto.
Qed.

(** ** Cases *)
Definition got {A} (d : A) (r : res A) : A := match r with Ok x => x | _ => d end.
Definition names0 : Z -> bytes := fun _ => [].
Definition ls_demo : list field := [("server"%string, FS [83]); ("sid"%string, FN 7)].
Definition bind_body (pwd : bytes) : bytes := [0;0;0;1;0;0;0;2] ++ [1] ++ [117;49] ++ repeat 0 14 ++ pwd ++ repeat 0 (24 - length pwd).
Definition bind_pk (pwd : bytes) : packet := Packet 1 3000 (bind_body pwd).
Definition lacc (secret : bytes) : authconf := AuthConf [] [117;49] [117;49] secret 48 1 [49;48] [] 1 2 0 [] [] [] [] [] 0 2 16 100.
Definition lines_sgip (pwd : bytes) : list line :=
  got [] (login_lines P_SGIP (fun _ => zeros 16) names0 (fun _ => Some (lacc [112;119])) ls_demo ls_demo None false true (bind_pk pwd)).
(** A wrong and another wrong password: same lines above debug, different debug lines. *)
Example C87_case : length (lines_sgip [112;120]) = 3%nat /\
  filter above_debug (lines_sgip [112;120]) = filter above_debug (lines_sgip [113]) /\
  filter above_debug (lines_sgip [112;120]) <> filter above_debug (lines_sgip [112;119]) /\
  lines_sgip [112;120] <> lines_sgip [113] /\ length (filter above_debug (lines_sgip [113])) = 2%nat.
Proof. vm_compute. repeat split; discriminate. Qed.
Definition md5_len (x : bytes) : bytes := repeat (zlen x) 16.
Definition conn_pk : packet := Packet 1 9 ([117;49;0;0;0;0] ++ repeat 23 16 ++ [48] ++ [0;0;1;0]).
Definition lines_cmpp (secret : bytes) : list line :=
  got [] (login_lines P_CMPP md5_len names0 (fun _ => Some (lacc secret)) ls_demo ls_demo None false true conn_pk).
(** Here the digest is the length: two secrets of two octets are not told apart, one of three is. *)
Example C87_secret_case : same_accounts md5_len (fun _ => Some (lacc [112;119])) (fun _ => Some (lacc [113;120])) /\
  lines_cmpp [112;119] = lines_cmpp [113;120] /\ lines_cmpp [112;119] <> lines_cmpp [112;119;1] /\
  length (lines_cmpp [112;119]) = 5%nat /\
  (x <- Connect_Decode 9 (pk_body conn_pk) ;; Ok (fst (Connect_Check md5_len x (Some (lacc [112;119]))))) = Ok 0.
Proof.
  split; [|vm_compute; repeat split; discriminate].
  intros n. cbn. repeat split. intros x y. unfold md5_len. rewrite !zlen_app. reflexivity.
Qed.
Definition sub_demo : submit := got (Submit (CHead 0 0 0) 0 0 0 0 0 [] 0 [] 0 0 0 0 [] [] [] [] [] [] 0 [] [] 0 0 [] [] 0)
  (submit_demo 48 [[49;51;56]; [49;51;57]] [72;101;108;108;111;32;119]).
Example C88_case : (fs <- Submit_Log sub_demo ;; Ok (value_of "msgContent"%string fs))
    = Ok (Some (FS [52;56;54;53;54;99;54;99;54;102;50;48;46;46;46])) /\
  Submit_Log (set_csub sub_demo [72;101;108;108;111;32;109;101]) = Submit_Log sub_demo /\
  Submit_Log (set_csub sub_demo [72;101;108;108;112;32]) <> Submit_Log sub_demo.
Proof. vm_compute. repeat split; discriminate. Qed.
Example C89_case : (fs <- Submit_Log sub_demo ;; Ok (recipients fs)) = Ok (Some [[49;51;56]; [49;51;57]]) /\
  SReport_Log names0 (sgip_NewReport [49] [3000; 5] 0 0 (1, 2, 3)) = Panic /\
  (fs <- SReport_Log names0 (sgip_NewReport [49] [3000; 5; 6] 0 0 (1, 2, 3)) ;; Ok (value_of "mt_seq"%string fs))
    = Ok (Some (FN (5 * 2 ^ 32 + 6))) /\
  Delivery_Log (Delivery (CHead 0 0 0) 1 [] [] 0 0 0 [] 0 1 0 [] None [] 48) = Panic.
Proof. vm_compute. repeat split. Qed.
Print Assumptions C87_refuted_debug.
Print Assumptions C87_refuted_pool.
Print Assumptions C87_refuted_replay_cmpp.
Print Assumptions C87_refuted_replay_smgp.
Print Assumptions C87_password_partial.
Print Assumptions C87_secret.
Print Assumptions C87_secret_sgip.
Print Assumptions C87_client.
Print Assumptions C88_shown_partial.
Print Assumptions C88_rest_hidden_partial.
Print Assumptions C88_parts.
Print Assumptions C88_refuted_debug.
Print Assumptions C88_refuted_pool.
Print Assumptions C89_submits.
Print Assumptions C89_handled.
Print Assumptions C89_deliveries.
Print Assumptions C89_built.
Print Assumptions C89_report_partial.
Print Assumptions C89_refuted_report.
Print Assumptions C89_recipients.
Print Assumptions C89_recipients_received_partial.

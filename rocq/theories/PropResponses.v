(** * PropResponses: property C45 (responses answer their request).
    Stated on bytes: a request body [f] that arrived under sequence number [seq] is decoded,
    answered and encoded; the frame sent back is compared with what arrived. *)
From Verif Require Import Base UtilsModel OptionsModel SpecWire WireProofs CmppModel CmppProofs CmppBuildProofs
  SgipModel SgipProofs SpecSgip TlvModel SmgpModel SmgpProofs PropSmgp.

(** The frame announces its own length, the request's command with the response bit set, and
    the request's sequence number (SGIP: its first, the node). *)
Definition answers (frame : bytes) (cmd seq : Z) : Prop :=
  firstn 12 frame = be 4 (zlen frame) ++ be 4 (cmd + 2 ^ 31) ++ be 4 seq.

(** ** Writing behind position n keeps the first n bytes *)
Lemma splice_keep n f lo src : Z.of_nat n <= lo -> lo + zlen src <= zlen f ->
  firstn n (splice f lo src) = firstn n f /\ zlen (splice f lo src) = zlen f.
Proof.
  intros H1 H2. unfold splice, zlen in *. split.
  - rewrite firstn_app, firstn_firstn, firstn_length. unfold bytes in *.
    replace (Nat.min n (Z.to_nat lo)) with n by lia. replace (n - _)%nat with 0%nat by lia. rewrite firstn_O, app_nil_r. reflexivity.
  - rewrite !app_length, firstn_length, skipn_length. unfold bytes in *. lia.
Qed.
Lemma set_at_run n f i b : Z.of_nat n <= i < zlen f ->
  exists f', set_at f i b = Ok f' /\ firstn n f' = firstn n f /\ zlen f' = zlen f.
Proof.
  intros H. unfold set_at. replace ((0 <=? i) && (i <? zlen f)) with true by (symmetry; apply andb_true_intro; lia).
  eexists. split; [reflexivity|]. apply splice_keep; [lia|]. change (zlen [b]) with 1. lia.
Qed.
Lemma copy_at_run n f lo hi src : Z.of_nat n <= lo -> lo <= hi -> hi <= zlen f ->
  exists f', copy_at f lo hi src = Ok f' /\ firstn n f' = firstn n f /\ zlen f' = zlen f.
Proof.
  intros H1 H2 H3. unfold copy_at. replace ((0 <=? lo) && (lo <=? hi) && (hi <=? zlen f)) with true by (symmetry; rewrite !andb_true_iff; lia).
  eexists. split; [reflexivity|]. apply splice_keep; [lia|]. unfold zlen in *. rewrite firstn_length. lia.
Qed.
Lemma put_be_run n k f lo hi v : Z.of_nat n <= lo -> hi = lo + Z.of_nat k -> hi <= zlen f ->
  exists f', put_be k f lo hi v = Ok f' /\ firstn n f' = firstn n f /\ zlen f' = zlen f.
Proof.
  intros H1 H2 H3. unfold put_be.
  replace ((0 <=? lo) && (lo <=? hi) && (hi <=? zlen f) && (Z.of_nat k <=? hi - lo)) with true
    by (symmetry; rewrite !andb_true_iff; lia).
  eexists. split; [reflexivity|]. apply splice_keep; [lia|]. rewrite zlen_be. lia.
Qed.
Lemma head_run h : 12 <= h_len h ->
  exists f, head_Encode h = Ok f /\ firstn 12 f = be 4 (h_len h) ++ be 4 (h_cmd h) ++ be 4 (h_seq h) /\ zlen f = h_len h /\
    f = (be 4 (h_len h) ++ be 4 (h_cmd h) ++ be 4 (h_seq h)) ++ repeat 0 (Z.to_nat (h_len h) - 12).
Proof.
  intros H. rewrite head_Encode_ok by lia. eexists. split; [reflexivity|].
  unfold render, head. cbn [map concat render1]. rewrite app_nil_r.
  split; [|split; [|reflexivity]].
  - rewrite firstn_app. rewrite !app_length, !length_be. change (12 - (4 + (4 + 4)))%nat with 0%nat.
    rewrite firstn_O, app_nil_r. apply firstn_all2. rewrite !app_length, !length_be. lia.
  - autorewrite with zlen. lia.
Qed.
Lemma smhead_run h : 12 <= h_len h ->
  exists f, smhead_Encode h = Ok f /\ firstn 12 f = be 4 (h_len h) ++ be 4 (h_cmd h) ++ be 4 (h_seq h) /\ zlen f = h_len h.
Proof. intros H. destruct (head_run h H) as (f & A & B & C & _). exists f. auto. Qed.
Lemma shead_run h n s1 s2 : 20 <= sh_len h -> sh_seq h = (n, s1, s2) ->
  exists f, shead_Encode h = Ok f /\ firstn 12 f = be 4 (sh_len h) ++ be 4 (sh_cmd h) ++ be 4 n /\ zlen f = sh_len h /\
    firstn 20 f = (be 4 (sh_len h) ++ be 4 (sh_cmd h) ++ be 4 n) ++ be 4 s1 ++ be 4 s2.
Proof.
  intros H E. rewrite shead_Encode_ok by lia. rewrite E. eexists. split; [reflexivity|].
  unfold render, head20. cbn [map concat render1]. rewrite app_nil_r.
  split; [|split].
  - rewrite <- !app_assoc. rewrite !app_assoc. do 3 rewrite (firstn_app 12). 
    rewrite !app_length, !length_be. cbn [Nat.add Nat.sub]. rewrite !firstn_O, !app_nil_r.
    apply firstn_all2. rewrite !app_length, !length_be. lia.
  - autorewrite with zlen. lia.
  - rewrite firstn_app. rewrite !app_length, !length_be. cbn [Nat.add Nat.sub]. rewrite firstn_O, app_nil_r, <- !app_assoc.
    apply firstn_all2. rewrite !app_length, !length_be. lia.
Qed.
(** From a kept prefix of 20 bytes to the two pieces. *)
Lemma split20 (a : bytes) (b x : bytes) : firstn 20 x = a ++ b -> length a = 12%nat -> length b = 8%nat ->
  firstn 12 x = a /\ slice x 12 20 = Ok b.
Proof.
  intros H La Lb. assert (Lx : (20 <= length x)%nat).
  { apply (f_equal (@length Z)) in H. rewrite firstn_length, app_length in H. unfold bytes in *. lia. }
  rewrite <- (firstn_skipn 20 x), H. split.
  - rewrite <- app_assoc, firstn_app. rewrite La. cbn [Nat.sub]. rewrite firstn_O, app_nil_r. apply firstn_all2. unfold bytes in *. lia.
  - rewrite <- app_assoc. eapply slice_at; [reflexivity| |]; unfold zlen, bytes in *; lia.
Qed.
Lemma be_slice f lo hi n v : bytes_ok f -> get_be n f lo hi = Ok v -> hi = lo + Z.of_nat n -> slice f lo hi = Ok (be n v).
Proof.
  intros Hf H Hh. unfold get_be in H. destruct (slice f lo hi) as [s| |] eqn:E; try discriminate. cbn [bind] in H.
  pose proof (slice_len _ _ _ _ E) as L. rewrite L in H. replace (Z.of_nat n <=? hi - lo) with true in H by lia.
  injection H as <-. assert (Ln : length s = n) by (unfold zlen in L; lia).
  assert (firstn n s = s) as -> by (rewrite <- Ln; apply firstn_all).
  rewrite <- Ln, be_unbe; [reflexivity|]. eapply slice_bytes_ok; eauto.
Qed.

(** One write that keeps the first [n] bytes, then the conclusion. *)
Ltac krun n :=
  match goal with
  | |- context [put_be ?k ?f ?lo ?hi ?v] => destruct (put_be_run n k f lo hi v) as (? & ?E & ? & ?); [lia|lia|lia|]
  | |- context [copy_at ?f ?lo ?hi ?v] => destruct (copy_at_run n f lo hi v) as (? & ?E & ? & ?); [lia|lia|lia|]
  | |- context [set_at ?f ?i ?v] => destruct (set_at_run n f i v) as (? & ?E & ? & ?); [lia|]
  end;
  match goal with E : ?a = Ok _ |- context [bind ?a _] => rewrite E; cbn [bind]; clear E
                | E : ?a = Ok _ |- context [?a] => rewrite E; clear E end.
Ltac kend := eexists; split; [reflexivity|];
  repeat match goal with P : firstn ?n ?f = firstn ?n ?g |- context [firstn ?n ?f] => rewrite P end;
  repeat match goal with L : zlen ?f = zlen ?g |- context [zlen ?f] => rewrite L end.

(** ** CMPP *)
Theorem C45_cmpp_connect : forall md5 seq f c ac code,
  Connect_Decode seq f = Ok c ->
  exists frame, ConnectResp_Encode (Connect_ToResponse md5 (snd (Connect_Check md5 c ac)) code) = Ok frame /\
    answers frame 1 seq.
Proof.
  intros md5 seq f c ac code D. unfold Connect_Decode in D. inv_bind D. injection D as <-.
  set (c0 := Connect _ _ _ _ _ _) in *.
  assert (S : h_seq (cn_h (snd (Connect_Check md5 c0 ac))) = seq).
  { unfold Connect_Check. destruct ac as [a|]; [|reflexivity]. destruct (negb _); [reflexivity|]. destruct (beqb _ _); reflexivity. }
  set (c1 := snd _) in *. clearbody c1. unfold ConnectResp_Encode, Connect_ToResponse, answers. cbn [cr_h cr_status cr_auth cr_version].
  destruct (is_v3 (cn_version c1)).
  - destruct (head_run (CHead 33 (RESP + CONNECT) (h_seq (cn_h c1)))) as (f0 & F0 & P0 & L0 & _); [cbn; lia|].
    rewrite F0. cbn [bind h_len h_seq h_cmd] in *. rewrite L0. change (33 =? _) with true. cbv iota. do 3 krun 12%nat.
    kend. rewrite P0, L0, S. reflexivity.
  - destruct (head_run (CHead 30 (RESP + CONNECT) (h_seq (cn_h c1)))) as (f0 & F0 & P0 & L0 & _); [cbn; lia|].
    rewrite F0. cbn [bind h_len h_seq h_cmd] in *. rewrite L0. change (30 =? _) with true. cbv iota. do 3 krun 12%nat.
    kend. rewrite P0, L0, S. reflexivity.
Qed.
Lemma cresp_run cmd ver seq mid res :
  exists frame, cresp_Encode (CResp (CHead (if is_v3 ver then 24 else 21) cmd seq) mid res ver) = Ok frame /\
    zlen frame = (if is_v3 ver then 24 else 21) /\
    firstn 20 frame = (be 4 (zlen frame) ++ be 4 cmd ++ be 4 seq) ++ be 8 mid.
Proof.
  unfold cresp_Encode. cbn [rs_h rs_msgId rs_result rs_version].
  set (n := if is_v3 ver then 24 else 21).
  destruct (head_run (CHead n cmd seq)) as (f0 & F0 & P0 & L0 & R0); [cbn; unfold n; destruct (is_v3 ver); lia|].
  cbn [h_len h_cmd h_seq] in *. rewrite F0. cbn [bind]. rewrite R0 in *.
  rewrite put_be_end; [|autorewrite with zlen; lia|lia|unfold n; destruct (is_v3 ver); lia]. cbn [bind].
  set (w := (be 4 n ++ be 4 cmd ++ be 4 seq) ++ be 8 mid).
  set (f1 := w ++ repeat 0 _).
  assert (Hw : length w = 20%nat) by (unfold w; rewrite !app_length, !length_be; reflexivity).
  assert (P1 : firstn 20 f1 = w).
  { unfold f1. rewrite firstn_app, Hw, Nat.sub_diag, firstn_O, app_nil_r. apply firstn_all2. unfold bytes in *. lia. }
  assert (L1 : zlen f1 = n).
  { unfold f1. rewrite zlen_app. unfold zlen at 1. rewrite Hw. autorewrite with zlen. unfold n. destruct (is_v3 ver); lia. }
  clearbody f1. unfold w, n in *. destruct (is_v3 ver); krun 20%nat; eexists; (split; [reflexivity|]); split; congruence.
Qed.
Theorem C45_cmpp_submit : forall ver seq f s code nid,
  Submit_Decode ver seq f = Ok s ->
  exists frame, cresp_Encode (Submit_ToResponse s code nid) = Ok frame /\ answers frame 4 seq.
Proof.
  intros ver seq f s code nid D. unfold Submit_Decode in D. inv_bind D. injection D as <-.
  unfold Submit_ToResponse. cbn [sb_version sb_h h_seq].
  match goal with |- context [CResp (CHead _ ?cmd ?q) ?m ?r ?v] => destruct (cresp_run cmd v q m r) as (fr & E' & _ & P') end.
  exists fr. split; [exact E'|]. apply split20 in P'; [|rewrite !app_length, !length_be; reflexivity|apply length_be].
  destruct P' as [P' _]. exact P'.
Qed.
(** A deliver (or status report) is acknowledged with the eight id bytes it came with. *)
Theorem C45_cmpp_deliver : forall ver seq f d code, bytes_ok f ->
  Delivery_Decode ver seq f = Ok d ->
  exists frame, cresp_Encode (Delivery_ToResponse d code) = Ok frame /\ answers frame 5 seq /\
    slice frame 12 20 = slice f 0 8.
Proof.
  intros ver seq f d code Hf D. unfold Delivery_Decode in D. inv_bind D. injection D as <-.
  unfold Delivery_ToResponse. cbn [dl_version dl_h h_seq dl_msgId].
  match goal with |- context [CResp (CHead _ ?cmd ?q) ?m ?r ?v] => destruct (cresp_run cmd v q m r) as (fr & E' & _ & P') end.
  exists fr. split; [exact E'|]. apply split20 in P'; [|rewrite !app_length, !length_be; reflexivity|apply length_be].
  destruct P' as [P' Q']. split; [exact P'|]. rewrite Q'. symmetry. apply (be_slice f 0 8 8); auto.
Qed.
Theorem C45_cmpp_bare : forall seq f,
  (exists frame, (h <- ActiveTest_Decode seq f ;; ActiveTestRsp_Encode (ActiveTest_ToResponse h)) = Ok frame /\ answers frame 8 seq) /\
  (exists frame, (h <- Terminate_Decode seq f ;; head_Encode (Terminate_ToResponse h)) = Ok frame /\ answers frame 2 seq).
Proof.
  intros seq f. unfold ActiveTest_Decode, Terminate_Decode, ActiveTestRsp_Encode, ActiveTest_ToResponse, Terminate_ToResponse, answers.
  cbn [bind h_seq]. split.
  - destruct (head_run (CHead 13 (RESP + ACTIVE_TEST) seq)) as (f0 & F0 & P0 & L0 & _); [cbn; lia|].
    rewrite F0. cbn [bind h_len h_seq h_cmd] in *. krun 12%nat. kend. rewrite P0, L0. reflexivity.
  - destruct (head_run (CHead 12 (RESP + TERMINATE) seq)) as (f0 & F0 & P0 & L0 & _); [cbn; lia|].
    rewrite F0. cbn [bind h_len h_seq h_cmd] in *. kend. rewrite P0, L0. reflexivity.
Qed.

(** ** SMGP *)
Theorem C45_smgp_login : forall md5 seq f l ac code,
  Login_Decode seq f = Ok l ->
  exists frame, LoginRsp_Encode (Login_ToResponse md5 (snd (Login_Check md5 l ac)) code) = Ok frame /\ answers frame 1 seq.
Proof.
  intros md5 seq f l ac code D. unfold Login_Decode in D. inv_bind D. injection D as <-.
  set (c0 := Login _ _ _ _ _ _ _) in *.
  assert (S : h_seq (lg_h (snd (Login_Check md5 c0 ac))) = seq).
  { unfold Login_Check. destruct ac as [a|]; [|reflexivity]. destruct (negb _); [reflexivity|]. destruct (beqb _ _); reflexivity. }
  set (c1 := snd _) in *. clearbody c1. unfold LoginRsp_Encode, Login_ToResponse, answers. cbn [lr_h lr_status lr_auth lr_version].
  destruct (smhead_run (CHead 33 (RESP + SM_LOGIN) (h_seq (lg_h c1)))) as (f0 & F0 & P0 & L0); [cbn; lia|].
  rewrite F0. cbn [bind h_len h_seq h_cmd] in *. rewrite L0. change (33 =? _) with true. cbv iota. do 3 krun 12%nat.
  kend. rewrite P0, L0, S. reflexivity.
Qed.
Lemma mresp_run cmd ver seq id code : zlen id = 10 ->
  exists frame, mresp_Encode (MResp (CHead 26 cmd seq) id code ver) = Ok frame /\ zlen frame = 26 /\
    firstn 12 frame = be 4 26 ++ be 4 cmd ++ be 4 seq /\ slice frame 12 22 = Ok id.
Proof.
  intros Hi. unfold mresp_Encode. cbn [mr_h mr_msgId mr_status].
  assert (A : smhead_Encode (CHead 26 cmd seq) = head_Encode (CHead 26 cmd seq)) by reflexivity. rewrite A. clear A.
  destruct (head_run (CHead 26 cmd seq)) as (f0 & F0 & P0 & L0 & R0); [cbn; lia|].
  cbn [h_len h_cmd h_seq] in *. rewrite F0. cbn [bind]. rewrite R0 in *. change (Z.to_nat 26 - 12)%nat with 14%nat.
  wstep. wstep. eexists. split; [reflexivity|].
  rewrite (fit_exact 10) by (unfold zlen in Hi; lia).
  split; [autorewrite with zlen; lia|]. split.
  - rewrite <- !app_assoc. rewrite !app_assoc. do 3 rewrite (firstn_app 12).
    assert (length id = 10%nat) by (unfold zlen in Hi; lia).
    rewrite !app_length, !length_be. cbn [Nat.add Nat.sub]. rewrite !firstn_O, !app_nil_r.
    apply firstn_all2. rewrite !app_length, !length_be. lia.
  - rewrite <- (app_assoc _ (be 4 code)). rewrite <- (app_assoc _ id). eapply slice_at; [reflexivity| |]; autorewrite with zlen; lia.
Qed.
Theorem C45_smgp_submit : forall gbd ver seq f s code id, zlen id = 10 ->
  MSubmit_Decode gbd ver seq f = Ok s ->
  exists frame, mresp_Encode (MSubmit_ToResponse s code id) = Ok frame /\ answers frame 2 seq.
Proof.
  intros gbd ver seq f s code id Hi D. unfold MSubmit_Decode in D. inv_bind D. injection D as <-.
  unfold MSubmit_ToResponse. cbn [ms_version ms_h h_seq].
  destruct (mresp_run (RESP + SM_SUBMIT) ver seq id code Hi) as (fr & E' & L' & P' & _).
  exists fr. split; [exact E'|]. unfold answers. rewrite P', L'. reflexivity.
Qed.
(** SMGP delivers: head and sequence are right ... *)
Theorem C45_smgp_deliver_partial : forall gbd ver seq f d code id, zlen id = 10 ->
  MDeliver_Decode gbd ver seq f = Ok d ->
  exists frame, mresp_Encode (MDeliver_ToResponse d code id) = Ok frame /\ answers frame 3 seq.
Proof.
  intros gbd ver seq f d code id Hi D. unfold MDeliver_Decode in D. inv_bind D. injection D as <-.
  unfold MDeliver_ToResponse. cbn [md_version md_h h_seq].
  destruct (mresp_run (RESP + SM_DELIVER) ver seq id code Hi) as (fr & E' & L' & P' & _).
  exists fr. split; [exact E'|]. unfold answers. rewrite P', L'. reflexivity.
Qed.
(** ... but the id sent back is the freshly drawn [id], so it is the request's only if the
    generator happens to produce that value. *)
Theorem C45_refuted : forall gbd ver seq f d code id frame, zlen id = 10 ->
  MDeliver_Decode gbd ver seq f = Ok d -> mresp_Encode (MDeliver_ToResponse d code id) = Ok frame ->
  exists rid, slice f 0 10 = Ok rid /\ md_msgId d = rid /\ (slice frame 12 22 = Ok rid <-> id = rid).
Proof.
  intros gbd ver seq f d code id frame Hi D E. unfold MDeliver_Decode in D. inv_bind D. injection D as <-.
  unfold MDeliver_ToResponse in E. cbn [md_version md_h h_seq] in E.
  destruct (mresp_run (RESP + SM_DELIVER) ver seq id code Hi) as (fr & E' & L' & P' & Q'). rewrite E in E'. injection E' as <-.
  eexists. split; [eassumption|]. split; [reflexivity|]. rewrite Q'. split; congruence.
Qed.
Theorem C45_smgp_bare : forall cmd seq f, cmd = 4 \/ cmd = 6 ->
  exists frame, (h <- sm_bare_Decode cmd seq f ;; smhead_Encode (sm_bare_ToResponse cmd h)) = Ok frame /\ answers frame cmd seq.
Proof.
  intros cmd seq f Hc. unfold sm_bare_Decode, sm_bare_ToResponse, answers. cbn [bind h_len h_seq].
  destruct (smhead_run (CHead 12 (RESP + cmd) seq)) as (f0 & F0 & P0 & L0); [cbn; lia|].
  exists f0. split; [exact F0|]. cbn [h_len h_cmd h_seq] in *. rewrite P0, L0. f_equal. f_equal. f_equal. unfold RESP. lia.
Qed.

(** ** SGIP: the eight bytes behind the first twelve (the rest of the sequence number) are
    sent back as they came; there is no other message id. *)
Lemma sgip_run n cmd q s1 s2 x g : 21 <= n ->
  (forall f, zlen f = n -> exists f', g f = Ok f' /\ firstn 20 f' = firstn 20 f /\ zlen f' = zlen f) ->
  exists frame, (f <- shead_Encode (SHead n (x + cmd) (q, s1, s2)) ;; g f) = Ok frame /\
    firstn 20 frame = (be 4 (zlen frame) ++ be 4 (x + cmd) ++ be 4 q) ++ be 4 s1 ++ be 4 s2.
Proof.
  intros Hn Hg. destruct (shead_run (SHead n (x + cmd) (q, s1, s2)) q s1 s2) as (f0 & F0 & _ & L0 & P0); [cbn; lia|reflexivity|].
  rewrite F0. cbn [bind sh_len sh_cmd sh_seq] in *. destruct (Hg f0 L0) as (f1 & E1 & P1 & L1). exists f1. split; [exact E1|].
  rewrite P1, P0, L1, L0. reflexivity.
Qed.
Lemma get_be_shrink n f lo hi v : get_be n f lo hi = Ok v -> get_be n f lo (lo + Z.of_nat n) = Ok v.
Proof.
  unfold get_be. intros H. apply bind_ok in H as (s & E & H). cbv beta in H.
  pose proof (slice_len _ _ _ _ E) as L. assert (B : exists x, slice f lo hi = Ok x) by eauto. apply slice_ok_iff in B.
  destruct (Z.of_nat n <=? zlen s) eqn:C; [|discriminate].
  assert (B' : exists x, slice f lo (lo + Z.of_nat n) = Ok x) by (apply slice_ok_iff; lia). destruct B' as [x Ex]. rewrite Ex. cbn [bind].
  pose proof (slice_len _ _ _ _ Ex) as Lx. replace (Z.of_nat n <=? zlen x) with true by lia.
  assert (firstn n x = firstn n s); [|congruence].
  unfold slice in E, Ex. destruct (_ && _) in E; [|discriminate]. destruct (_ && _) in Ex; [|discriminate].
  assert (E2 : s = firstn (Z.to_nat (hi - lo)) (skipn (Z.to_nat lo) f)) by congruence.
  assert (Ex2 : x = firstn (Z.to_nat (lo + Z.of_nat n - lo)) (skipn (Z.to_nat lo) f)) by congruence.
  rewrite E2, Ex2, !firstn_firstn. f_equal. lia.
Qed.
Lemma tail8 f s1 s2 hi1 hi2 : bytes_ok f -> get_be 4 f 0 hi1 = Ok s1 -> get_be 4 f 4 hi2 = Ok s2 ->
  slice f 0 8 = Ok (be 4 s1 ++ be 4 s2).
Proof.
  intros Hf A B. assert (A' : get_be 4 f 0 4 = Ok s1 /\ get_be 4 f 4 8 = Ok s2) by (split; [apply (get_be_shrink 4 f 0 hi1)|apply (get_be_shrink 4 f 4 hi2)]; assumption).
  destruct A' as [A1 B1]. pose proof (be_slice f 0 4 4 s1 Hf A1 eq_refl) as S1. pose proof (be_slice f 4 8 4 s2 Hf B1 eq_refl) as S2.
  assert (8 <= zlen f). { apply (f_equal (fun r => match r with Ok _ => true | _ => false end)) in S2.
    unfold slice in S2. destruct ((0 <=? 4) && (4 <=? 8) && (8 <=? zlen f)) eqn:C; [|discriminate]. rewrite !andb_true_iff in C. lia. }
  unfold slice in *. replace ((0 <=? 0) && (0 <=? 4) && (4 <=? zlen f)) with true in S1 by (symmetry; rewrite !andb_true_iff; lia).
  replace ((0 <=? 4) && (4 <=? 8) && (8 <=? zlen f)) with true in S2 by (symmetry; rewrite !andb_true_iff; lia).
  replace ((0 <=? 0) && (0 <=? 8) && (8 <=? zlen f)) with true by (symmetry; rewrite !andb_true_iff; lia).
  apply (f_equal (fun r => match r with Ok x => x | _ => [] end)) in S1. apply (f_equal (fun r => match r with Ok x => x | _ => [] end)) in S2.
  cbv beta iota in S1, S2. rewrite <- S1, <- S2. f_equal.
  change (Z.to_nat (8 - 0)) with (4 + 4)%nat. change (Z.to_nat (4 - 0)) with 4%nat. change (Z.to_nat (8 - 4)) with 4%nat.
  change (Z.to_nat 0) with 0%nat. change (Z.to_nat 4) with 4%nat. change (skipn 0 f) with f.
  destruct f as [|a [|b [|c [|d r]]]]; try (unfold zlen in *; cbn [length] in *; lia). reflexivity.
Qed.
Definition answers20 (frame f : bytes) (cmd node : Z) : Prop :=
  answers frame cmd node /\ slice frame 12 20 = slice f 0 8.
Lemma sgip_answers frame f cmd q s1 s2 : bytes_ok f ->
  firstn 20 frame = (be 4 (zlen frame) ++ be 4 (RESP + cmd) ++ be 4 q) ++ be 4 s1 ++ be 4 s2 ->
  slice f 0 8 = Ok (be 4 s1 ++ be 4 s2) -> answers20 frame f cmd q.
Proof.
  intros Hf P S. apply split20 in P; [|rewrite !app_length, !length_be; reflexivity|rewrite app_length, !length_be; reflexivity].
  destruct P as [P Q]. split; [|etransitivity; [exact Q|symmetry; exact S]]. unfold answers. rewrite P. f_equal. f_equal. f_equal. unfold RESP. lia.
Qed.
Lemma set20 v n : 21 <= n -> forall f, zlen f = n -> exists f', set_at f 20 v = Ok f' /\ firstn 20 f' = firstn 20 f /\ zlen f' = zlen f.
Proof. intros Hn f Hf. apply set_at_run. lia. Qed.
Theorem C45_sgip_bind : forall node f b code, bytes_ok f -> Bind_Decode node f = Ok b ->
  exists frame, BindRsp_Encode (Bind_ToResponse b code) = Ok frame /\ answers20 frame f 1 node.
Proof.
  intros node f b code Hf D. unfold Bind_Decode in D. inv_bind D. injection D as <-.
  unfold Bind_ToResponse, BindRsp_Encode. cbn [bd_h sh_seq sr_h sr_status].
  match goal with |- context [shead_Encode (SHead ?n (?a + ?b) (?q, ?s1, ?s2))] => destruct (sgip_run n b q s1 s2 a
     (fun f => if (zlen f =? 21) && (shead_len (SHead n (a + b) (q, s1, s2)) =? 21) then set_at f 20 (u8 (u8 code)) else Ok f)) as (fr & E' & P') end.
  { lia. }
  { intros f0 L. cbv beta. replace (zlen f0 =? 21) with true by lia. change (true && (_ =? 21)) with true. cbv iota. apply set_at_run. lia. }
  exists fr. split; [exact E'|]. eapply sgip_answers; eauto. eapply tail8; eauto.
Qed.
Ltac sgip_case D Hf :=
  inv_bind D; injection D as <-; unfold srsp_Encode; cbn [ss_h sd_h st_h sh_seq sr_h sr_status];
  match goal with |- context [u8 (u8 ?code)] =>
  match goal with |- context [shead_Encode (SHead ?n (?a + ?b) (?q, ?s1, ?s2))] =>
    let fr := fresh "fr" in let E' := fresh "E'" in let P' := fresh "P'" in
    destruct (sgip_run n b q s1 s2 a (fun f => set_at f 20 (u8 (u8 code))) ltac:(lia) (set20 (u8 (u8 code)) n ltac:(lia))) as (fr & E' & P');
  exists fr; split; [exact E'|]; eapply sgip_answers; eauto; eapply tail8; eauto end end.
Theorem C45_sgip_submit : forall node f s code, bytes_ok f -> SSubmit_Decode node f = Ok s ->
  exists frame, srsp_Encode (SSubmit_ToResponse s code) = Ok frame /\ answers20 frame f 3 node.
Proof. intros node f s code Hf D. unfold SSubmit_Decode in D. unfold SSubmit_ToResponse. sgip_case D Hf. Qed.
Theorem C45_sgip_deliver : forall node f s code, bytes_ok f -> SDeliver_Decode node f = Ok s ->
  exists frame, srsp_Encode (SDeliver_ToResponse s code) = Ok frame /\ answers20 frame f 4 node.
Proof. intros node f s code Hf D. unfold SDeliver_Decode in D. unfold SDeliver_ToResponse. sgip_case D Hf. Qed.
Theorem C45_sgip_report : forall node f s code, bytes_ok f -> SReport_Decode node f = Ok s ->
  exists frame, srsp_Encode (SReport_ToResponse s code) = Ok frame /\ answers20 frame f 5 node.
Proof. intros node f s code Hf D. unfold SReport_Decode in D. unfold SReport_ToResponse. sgip_case D Hf. Qed.
Theorem C45_sgip_unbind : forall node f u, bytes_ok f -> Unbind_Decode 2 node f = Ok u ->
  exists frame, shead_Encode (Unbind_ToResponse u) = Ok frame /\ answers20 frame f 2 node.
Proof.
  intros node f u Hf D. unfold Unbind_Decode in D. inv_bind D. injection D as <-. unfold Unbind_ToResponse. cbn [sh_len sh_seq].
  match goal with |- context [shead_Encode (SHead ?n ?cm (?q, ?s1, ?s2))] =>
    destruct (shead_run (SHead n cm (q, s1, s2)) q s1 s2) as (f0 & F0 & _ & L0 & P0); [cbn; lia|reflexivity|] end.
  exists f0. split; [exact F0|]. cbn [sh_len sh_cmd] in *. rewrite <- L0 in P0.
  eapply sgip_answers; eauto. eapply tail8; eauto.
Qed.

(** A deliver of each protocol and its answer. *)
Example C45_case_cmpp :
  (d <- Delivery_Decode 32 7 (([1;2;3;4;5;6;7;8] ++ repeat 0 57) ++ repeat 0 8) ;; cresp_Encode (Delivery_ToResponse d 9))
  = Ok [0;0;0;21; 128;0;0;5; 0;0;0;7; 1;2;3;4;5;6;7;8; 9].
Proof. vm_compute. reflexivity. Qed.
Example C45_case_smgp :
  (d <- MDeliver_Decode Some 48 7 (([1;2;3;4;5;6;7;8;9;10] ++ repeat 0 59) ++ repeat 0 8) ;; mresp_Encode (MDeliver_ToResponse d 0 (repeat 17 10)))
  = Ok ([0;0;0;26; 128;0;0;3; 0;0;0;7] ++ repeat 17 10 ++ [0;0;0;0]).
Proof. vm_compute. reflexivity. Qed.
Example C45_case_sgip :
  (d <- SReport_Decode 3 ([1;2;3;4;5;6;7;8] ++ repeat 0 44) ;; srsp_Encode (SReport_ToResponse d 33))
  = Ok ([0;0;0;29; 128;0;0;5; 0;0;0;3; 1;2;3;4;5;6;7;8; 33] ++ repeat 0 8).
Proof. vm_compute. reflexivity. Qed.
Print Assumptions C45_cmpp_connect.
Print Assumptions C45_cmpp_submit.
Print Assumptions C45_cmpp_deliver.
Print Assumptions C45_cmpp_bare.
Print Assumptions C45_smgp_login.
Print Assumptions C45_smgp_submit.
Print Assumptions C45_smgp_deliver_partial.
Print Assumptions C45_refuted.
Print Assumptions C45_smgp_bare.
Print Assumptions C45_sgip_bind.
Print Assumptions C45_sgip_submit.
Print Assumptions C45_sgip_deliver.
Print Assumptions C45_sgip_report.
Print Assumptions C45_sgip_unbind.

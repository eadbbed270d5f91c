(** * PropLine: the log line of a received submit or delivery shows what stands in the packet (C135).
    Code: /repo/codec/cmpp/submit.go:163-235 and 321-358, /repo/codec/sgip/submit.go:150-211 and 254-284,
    /repo/codec/smgp/submit.go:146-198 and 248-275, /repo/codec/cmpp/delivery.go:101-141 and 186-209,
    /repo/codec/sgip/deliver.go and report.go, /repo/codec/smgp/deliver.go:111-145 and 173-200 (Decode, Log).  Models: CmppModel.v, SgipModel.v, SmgpModel.v, LogModel.v. *)
From Coq Require Import String.
From Verif Require Import Base UtilsModel SpecText UtilsProofs CmppModel SgipModel SmgpModel LogModel PropLog PropTrace.
Import LogModel.
Local Open Scope string_scope.
Local Open Scope list_scope.
Local Open Scope Z_scope.

(** ** Specification *)
(** What stands where in the body of a packet: a text of [n] octets, a number of one octet, a number of four octets. *)
Inductive place := Txt (lo n : nat) | Oct (lo : nat) | Num4 (lo : nat).
Definition four (l : bytes) : Z := fold_left (fun a b => a * 256 + b) l 0.
Definition shown_at (f : bytes) (fs : list field) (p : string * place) : Prop :=
  match snd p with
  | Txt lo n => exists t, value_of (fst p) fs = Some (FS t) /\ read_from f lo n t
  | Oct lo => exists v, value_of (fst p) fs = Some (FN v) /\ nth_error f lo = Some v
  | Num4 lo => value_of (fst p) fs = Some (FN (four (firstn 4 (skipn lo f))))
  end.
(** CMPP_SUBMIT of version 2 and 3: the fee number has 21 octets, or 32 and its type. *)
Definition cmpp_table (v3 : bool) : list (string * place) :=
  let b := (if v3 then 56 else 44)%nat in
  [("pkTotal", Oct 8); ("pkNumber", Oct 9); ("needReport", Oct 10); ("priority", Oct 11); ("serviceId", Txt 12 10);
   ("feeUsertype", Oct 22); ("feeTerminalId", Txt 23 (if v3 then 32 else 21)); ("tpPid", Oct b); ("tpUdhi", Oct (b + 1));
   ("msgFormat", Oct (b + 2)); ("clientId", Txt (b + 3) 6); ("feeType", Txt (b + 9) 2); ("feeCode", Txt (b + 11) 6);
   ("validTime", Txt (b + 17) 17); ("atTime", Txt (b + 34) 17); ("spNumber", Txt (b + 51) 21); ("userCount", Oct (b + 72))]
  ++ if v3 then [("feeTerminalType", Oct 55)] else [].
(** The octets behind the recipients of a CMPP submit of version 3: the type of the numbers, the length of the text; behind
    the text the link. *)
Definition cmpp_tail (n l : nat) : list (string * place) := [("msgLength", Oct (130 + 32 * n)); ("linkID", Txt (131 + 32 * n + l) 20)].
(** SGIP submit (behind the sequence number), [i] = the octets before the corporation id *)
Definition sgip_table (n : nat) : list (string * place) :=
  let i := (51 + 21 * n)%nat in
  [("spNumber", Txt 8 21); ("chargeNumber", Txt 29 21); ("userCount", Oct 50); ("clientId", Txt i 5); ("serviceId", Txt (i + 5) 10);
   ("feeType", Oct (i + 15)); ("feeValue", Txt (i + 16) 6); ("givenValue", Txt (i + 22) 6); ("agentFlag", Oct (i + 28));
   ("morelatetoMTFlag", Oct (i + 29)); ("priority", Oct (i + 30)); ("validTime", Txt (i + 31) 16); ("atTime", Txt (i + 47) 16);
   ("needReport", Oct (i + 63)); ("tpPid", Oct (i + 64)); ("tpUdhi", Oct (i + 65)); ("msgFormat", Oct (i + 66)); ("msgType", Oct (i + 67));
   ("msgLength", Num4 (i + 68))].
Definition smgp_table (n : nat) : list (string * place) :=
  [("msgType", Oct 0); ("needReport", Oct 1); ("priority", Oct 2); ("serviceId", Txt 3 10); ("feeType", Txt 13 2); ("feeCode", Txt 15 6);
   ("fixedFee", Txt 21 6); ("msgFormat", Oct 27); ("validTime", Txt 28 17); ("atTime", Txt 45 17); ("spNumber", Txt 62 21);
   ("chargeTermID", Txt 83 21); ("userCount", Oct 104); ("msgLength", Oct (105 + 21 * n))].
(** CMPP_DELIVER: the number of the sender has 21 octets, or 32 and its type; [l] = the length of the text. *)
Definition cmpp_deliver (v3 : bool) (l : nat) : list (string * place) :=
  let b := (if v3 then 75 else 63)%nat in
  [("tpPid", Oct 39); ("tpUdhi", Oct 40); ("msgFmt", Oct 41); ("srcTerminalId", Txt 42 (if v3 then 32 else 21)); ("isReport", Oct b); ("msgLength", Oct (b + 1))]
  ++ if v3 then [("srcTerminalType", Oct 74); ("linkID", Txt (77 + l) 20)] else [].
Definition sgip_deliver : list (string * place) :=
  [("userNumber", Txt 8 21); ("spNumber", Txt 29 21); ("tpPid", Oct 50); ("tpUdhi", Oct 51); ("msgFormat", Oct 52); ("msgLength", Num4 53)].
Definition sgip_report : list (string * place) := [("reportType", Oct 20); ("userNumber", Txt 21 21); ("errorCode", Oct 43)].
Definition smgp_deliver : list (string * place) :=
  [("isReport", Oct 10); ("msgFmt", Oct 11); ("recvTime", Txt 12 14); ("srcTermID", Txt 26 21); ("destTermID", Txt 47 21); ("msgLength", Oct 68)].
(** The head: the length of the whole packet and its number. *)
Definition headed (f : bytes) (seq : Z) (fs : list field) : Prop :=
  value_of "pkl" fs = Some (FN (12 + zlen f)) /\ value_of "seq" fs = Some (FN seq).

(** ** Lemmas *)
Lemma read_there f lo hi x a n : slice f lo hi = Ok x -> Z.to_nat lo = a -> Z.to_nat (hi - lo) = n -> read_from f a n (TrimStr x).
Proof. intros E <- <-. apply read_slice. exact E. Qed.
Lemma oct_there (f : bytes) i x a : at_ f i = Ok x -> Z.to_nat i = a -> nth_error f a = Some x.
Proof. intros E <-. unfold at_ in E. destruct ((0 <=? i) && (i <? zlen f)); [|discriminate]. destruct (nth_error f (Z.to_nat i)); [injection E as <-; reflexivity|discriminate]. Qed.
Lemma users_index f : forall n i us j, get_users f i n = Ok (us, j) -> j = i + 21 * Z.of_nat n.
Proof.
  induction n as [|n IH]; intros i us j E; cbn [get_users] in E; [injection E as <- <-; lia|].
  apply bind_ok in E as (p & _ & E). apply bind_ok in E as ([r k] & G & E). injection E as <- <-. apply IH in G. lia.
Qed.
Lemma terms_index f : forall n i us j, get_terms f i n = Ok (us, j) -> j = i + 21 * Z.of_nat n.
Proof.
  induction n as [|n IH]; intros i us j E; cbn [get_terms] in E; [injection E as <- <-; lia|].
  apply bind_ok in E as (p & _ & E). apply bind_ok in E as ([r k] & G & E). injection E as <- <-. apply IH in G. lia.
Qed.
Lemma four_there f lo v a : 0 <= lo -> get_be 4 f lo (zlen f) = Ok v -> Z.to_nat lo = a -> v = four (firstn 4 (skipn a f)).
Proof.
  intros L E <-. unfold get_be in E. apply bind_ok in E as (s & S & E). apply ServerProofs.slice_val in S. destruct (Z.of_nat 4 <=? zlen s); [|discriminate]. injection E as <-. subst s.
  rewrite (firstn_all2 (n := Z.to_nat (zlen f - lo))) by (rewrite skipn_length; unfold zlen; lia). reflexivity.
Qed.
Lemma ok_pair {A B} (a c : A) (b d : B) : Ok (a, b) = Ok (c, d) -> c = a /\ d = b.
Proof. intros E. injection E as -> ->. auto. Qed.
Ltac entry := first [eexists; split; [reflexivity|first [eapply read_there; [eassumption|lia|lia]|eapply oct_there; [eassumption|lia]]]].

(** ** Theorems *)
Theorem C135_cmpp : forall ver seq f s fs, Submit_Decode ver seq f = Ok s -> Submit_Log s = Ok fs ->
  headed f seq fs /\ Forall (shown_at f fs) (cmpp_table (is_v3 ver)) /\
  (is_v3 ver = true -> forall n l, nth_error f 128 = Some n -> nth_error f (Z.to_nat (130 + 32 * n)) = Some l -> 0 <= n -> 0 <= l ->
    Forall (shown_at f fs) (cmpp_tail (Z.to_nat n) (Z.to_nat l))).
Proof.
  intros ver seq f s fs E L. unfold Submit_Decode in E. cbv zeta in E. unfold cmpp_table, headed.
  destruct (is_v3 ver) eqn:V; cbv iota in E.
  - do 6 (apply bind_ok in E as (? & ? & E)). apply bind_ok in E as ([[? ?] ?] & F & E).
    apply bind_ok in F as (? & ? & F). apply bind_ok in F as (? & ? & F). apply ok_pair in F as [F ->]; injection F as -> ->. do 9 (apply bind_ok in E as (? & ? & E)).
    apply bind_ok in E as (u & U & E). apply bind_ok in E as (? & ? & E). apply bind_ok in E as ([? ?] & F & E). apply bind_ok in F as (? & ? & F). apply ok_pair in F as [-> ->].
    apply bind_ok in E as (ml & ML & E). do 2 (apply bind_ok in E as (? & ? & E)). apply bind_ok in E as (lk & LK & E). apply bind_ok in LK as (lk0 & LK & LK2). injection LK2 as <-. injection E as <-.
    unfold Submit_Log in L. apply bind_ok in L as (m & _ & L). apply bind_ok in L as (ids & _ & L). injection L as <-.
    split; [split; reflexivity|]. split; [repeat (constructor; [entry|]); constructor|].
    intros _ n l N M N0 L0. assert (u = n) as -> by (apply (oct_there _ _ _ 128) in U; [congruence|reflexivity]).
    assert (ml = l) as -> by (apply (oct_there _ _ _ (Z.to_nat (130 + 32 * n))) in ML; [congruence|lia]).
    repeat (constructor; [entry|]). constructor.
  - do 6 (apply bind_ok in E as (? & ? & E)). apply bind_ok in E as ([[? ?] ?] & F & E).
    apply bind_ok in F as (? & ? & F). apply ok_pair in F as [F ->]; injection F as -> ->. do 9 (apply bind_ok in E as (? & ? & E)).
    apply bind_ok in E as (u & U & E). apply bind_ok in E as (? & ? & E). apply bind_ok in E as ([? ?] & F & E). apply ok_pair in F as [-> ->].
    apply bind_ok in E as (ml & ML & E). do 2 (apply bind_ok in E as (? & ? & E)). apply bind_ok in E as (lk & LK & E). injection LK as <-. injection E as <-.
    unfold Submit_Log in L. apply bind_ok in L as (m & _ & L). apply bind_ok in L as (ids & _ & L). injection L as <-.
    split; [split; reflexivity|]. split; [repeat (constructor; [entry|]); constructor|discriminate].
Qed.
(** In version 2 the length of the text is shown from behind the recipients' octets counted modulo 256 ... *)
Lemma v2_length ver seq f s fs n : is_v3 ver = false -> Submit_Decode ver seq f = Ok s -> Submit_Log s = Ok fs -> nth_error f 116 = Some n -> 0 <= n ->
  shown_at f fs ("msgLength", Oct (Z.to_nat (117 + (21 * n) mod 256))).
Proof.
  intros V E L N N0. unfold Submit_Decode in E. cbv zeta in E. rewrite V in E.
  do 6 (apply bind_ok in E as (? & ? & E)). apply bind_ok in E as ([[? ?] ?] & F & E). apply bind_ok in F as (? & ? & F). apply ok_pair in F as [F ->]; injection F as -> ->. do 9 (apply bind_ok in E as (? & ? & E)).
  apply bind_ok in E as (u & U & E). assert (u = n) as -> by (apply (oct_there _ _ _ 116) in U; [congruence|reflexivity]).
  apply bind_ok in E as (? & ? & E). apply bind_ok in E as ([? ?] & F & E). apply ok_pair in F as [-> ->].
  apply bind_ok in E as (ml & ML & E). do 2 (apply bind_ok in E as (? & ? & E)). apply bind_ok in E as (lk & LK & E). injection LK as <-. injection E as <-.
  unfold Submit_Log in L. apply bind_ok in L as (m & _ & L). apply bind_ok in L as (ids & _ & L). injection L as <-.
  exists ml. split; [reflexivity|]. eapply oct_there; [exact ML|]. f_equal. unfold u8. rewrite (Z.mul_comm n 21). lia.
Qed.
(** ... so it is the right one for at most twelve recipients. *)
Theorem C135_length_partial : forall ver seq f s fs n, is_v3 ver = false -> Submit_Decode ver seq f = Ok s -> Submit_Log s = Ok fs -> nth_error f 116 = Some n -> 0 <= n <= 12 ->
  shown_at f fs ("msgLength", Oct (117 + 21 * Z.to_nat n)).
Proof.
  intros ver seq f s fs n V E L N N0. pose proof (v2_length ver seq f s fs n V E L N ltac:(lia)) as P. rewrite Z.mod_small in P by lia.
  replace (Z.to_nat (117 + 21 * n)) with (117 + 21 * Z.to_nat n)%nat in P by lia. exact P.
Qed.
(** With thirteen or more an octet of the recipients is shown as the length of the text. *)
Theorem C135_refuted_length : forall ver seq f s fs n, is_v3 ver = false -> Submit_Decode ver seq f = Ok s -> Submit_Log s = Ok fs -> nth_error f 116 = Some n -> 13 <= n ->
  exists k, (117 <= k < 117 + 21 * Z.to_nat n)%nat /\ shown_at f fs ("msgLength", Oct k).
Proof.
  intros ver seq f s fs n V E L N N0. pose proof (v2_length ver seq f s fs n V E L N ltac:(lia)) as P. exists (Z.to_nat (117 + (21 * n) mod 256)). split; [|exact P].
  pose proof (Z.mod_pos_bound (21 * n) 256 ltac:(lia)). lia.
Qed.
Theorem C135_sgip : forall cid f s fs n, SSubmit_Decode cid f = Ok s -> SSubmit_Log s = Ok fs -> nth_error f 50 = Some n -> 0 <= n ->
  value_of "pkl" fs = Some (FN (12 + zlen f)) /\ Forall (shown_at f fs) (sgip_table (Z.to_nat n)).
Proof.
  intros cid f s fs n E L N N0. unfold SSubmit_Decode in E. cbv zeta in E. do 4 (apply bind_ok in E as (? & ? & E)). apply bind_ok in E as (k & K & E).
  assert (k = n) as -> by (apply (oct_there _ _ _ 50) in K; [congruence|reflexivity]). apply bind_ok in E as ([us i] & G & E). apply users_index in G. rewrite Z2Nat.id in G by lia. subst i.
  do 15 (apply bind_ok in E as (? & ? & E)). apply bind_ok in E as (len & LEN & E). do 2 (apply bind_ok in E as (? & ? & E)). injection E as <-.
  unfold SSubmit_Log in L. apply bind_ok in L as (m & _ & L). unfold shead_Log in L. cbn [sh_seq ss_h] in L. injection L as <-. split; [reflexivity|].
  unfold sgip_table. do 18 (constructor; [entry|]). constructor; [|constructor]. cbn [shown_at snd fst]. erewrite <- four_there; [reflexivity| |exact LEN|]; lia.
Qed.
Theorem C135_smgp : forall gbd ver seq f s fs n, MSubmit_Decode gbd ver seq f = Ok s -> MSubmit_Log s = Ok fs -> nth_error f 104 = Some n -> 0 <= n ->
  headed f seq fs /\ Forall (shown_at f fs) (smgp_table (Z.to_nat n)).
Proof.
  intros gbd ver seq f s fs n E L N N0. unfold MSubmit_Decode in E. cbv zeta in E. do 12 (apply bind_ok in E as (? & ? & E)). apply bind_ok in E as (k & K & E).
  assert (k = n) as -> by (apply (oct_there _ _ _ 104) in K; [congruence|reflexivity]). apply bind_ok in E as ([us i] & G & E). apply terms_index in G. rewrite Z2Nat.id in G by lia. subst i.
  do 5 (apply bind_ok in E as (? & ? & E)). injection E as <-. unfold MSubmit_Log in L. apply bind_ok in L as (m & _ & L). injection L as <-.
  split; [split; reflexivity|]. unfold smgp_table. repeat (constructor; [entry|]). constructor.
Qed.
(** The lines of deliveries and reports. *)
Theorem C135_cmpp_deliver : forall ver seq f d fs l, Delivery_Decode ver seq f = Ok d -> Delivery_Log d = Ok fs -> nth_error f (if is_v3 ver then 76 else 64) = Some l -> 0 <= l ->
  headed f seq fs /\ Forall (shown_at f fs) (cmpp_deliver (is_v3 ver) (Z.to_nat l)) /\ (exists t, value_of "msgId" fs = Some (FS t) /\ zlen t = 16 /\ (bytes_ok f -> hex_value t = Some (four (firstn 8 f)))).
Proof.
  intros ver seq f d fs l E L M L0. unfold Delivery_Decode in E. cbv zeta in E. unfold cmpp_deliver, headed. apply bind_ok in E as (mid & MID & E).
  assert (T : forall u, u = mid -> zlen (Uint64HexString u) = 16 /\ (bytes_ok f -> hex_value (Uint64HexString u) = Some (four (firstn 8 f)))).
  { intros u ->. split; [reflexivity|]. intros B. apply (ServerProofs.get_be_val 8) in MID; [|reflexivity]. change (skipn (Z.to_nat 0) f) with f in MID. change (four (firstn 8 f)) with (unbe (firstn 8 f)). rewrite <- MID.
    apply (Uint64HexString_value mid). rewrite MID. pose proof (unbe_range (firstn 8 f) (bytes_ok_firstn _ _ B)) as R. assert (length (firstn 8 f) <= 8)%nat by apply firstn_le_length.
    split; [lia|]. eapply Z.lt_le_trans; [apply R|]. change (2 ^ 64) with (256 ^ 8). apply Z.pow_le_mono_r; unfold zlen; lia. }
  destruct (is_v3 ver) eqn:V; cbv iota in E.
  - do 5 (apply bind_ok in E as (? & ? & E)). apply bind_ok in E as ([[? ?] ?] & F & E). apply bind_ok in F as (? & ? & F). apply bind_ok in F as (? & ? & F). apply ok_pair in F as [F ->]; injection F as -> ->.
    apply bind_ok in E as (rd & ? & E). apply bind_ok in E as (ml & ML & E). assert (ml = l) as -> by (apply (oct_there _ _ _ 76) in ML; [congruence|reflexivity]).
    apply bind_ok in E as (? & ? & E). apply bind_ok in E as ([? ?] & _ & E). apply bind_ok in E as (lk & LK & E). apply bind_ok in LK as (lk0 & LK & LK2). injection LK2 as <-. injection E as <-.
    unfold Delivery_Log in L. apply bind_ok in L as (m & _ & L). injection L as <-. split; [split; reflexivity|]. split; [repeat (constructor; [entry|]); constructor|]. eexists. split; [reflexivity|apply T; reflexivity].
  - do 5 (apply bind_ok in E as (? & ? & E)). apply bind_ok in E as ([[? ?] ?] & F & E). apply bind_ok in F as (? & ? & F). apply ok_pair in F as [F ->]; injection F as -> ->.
    apply bind_ok in E as (rd & ? & E). apply bind_ok in E as (ml & ML & E). apply bind_ok in E as (? & ? & E). apply bind_ok in E as ([? ?] & _ & E). apply bind_ok in E as (lk & LK & E). injection LK as <-. injection E as <-.
    unfold Delivery_Log in L. apply bind_ok in L as (m & _ & L). injection L as <-. split; [split; reflexivity|]. split; [repeat (constructor; [entry|]); constructor|]. eexists. split; [reflexivity|apply T; reflexivity].
Qed.
Theorem C135_sgip_deliver :
  (forall cid f d fs, SDeliver_Decode cid f = Ok d -> SDeliver_Log d = Ok fs -> value_of "pkl" fs = Some (FN (12 + zlen f)) /\ Forall (shown_at f fs) sgip_deliver) /\
  (forall names cid f r fs, SReport_Decode cid f = Ok r -> SReport_Log names r = Ok fs -> value_of "pkl" fs = Some (FN (12 + zlen f)) /\ Forall (shown_at f fs) sgip_report).
Proof.
  split.
  - intros cid f d fs E L. unfold SDeliver_Decode in E. do 7 (apply bind_ok in E as (? & ? & E)). apply bind_ok in E as (len & LEN & E). apply bind_ok in E as (? & ? & E). injection E as <-.
    unfold SDeliver_Log in L. apply bind_ok in L as (m & _ & L). unfold shead_Log in L. cbn [sh_seq sd_h] in L. injection L as <-. split; [reflexivity|].
    unfold sgip_deliver. do 5 (constructor; [entry|]). constructor; [|constructor]. cbn [shown_at snd fst]. erewrite <- four_there; [reflexivity| |exact LEN|]; lia.
  - intros names cid f r fs E L. unfold SReport_Decode in E. do 9 (apply bind_ok in E as (? & ? & E)). injection E as <-. unfold SReport_Log in L. do 3 (apply bind_ok in L as (? & _ & L)).
    unfold shead_Log in L. cbn [sh_seq st_h] in L. injection L as <-. split; [reflexivity|]. unfold sgip_report. repeat (constructor; [entry|]). constructor.
Qed.
Theorem C135_smgp_deliver : forall gbd ver seq f d fs, MDeliver_Decode gbd ver seq f = Ok d -> MDeliver_Log d = Ok fs -> headed f seq fs /\ Forall (shown_at f fs) smgp_deliver.
Proof.
  intros gbd ver seq f d fs E L. unfold MDeliver_Decode in E. do 7 (apply bind_ok in E as (? & ? & E)). apply bind_ok in E as ([? ?] & _ & E). injection E as <-.
  unfold MDeliver_Log in L. apply bind_ok in L as (m & _ & L). injection L as <-. split; [split; reflexivity|]. unfold smgp_deliver. repeat (constructor; [entry|]). constructor.
Qed.
(** The service of a CMPP delivery is not shown at all. *)
Theorem C135_refuted_service : forall ver seq f d fs, Delivery_Decode ver seq f = Ok d -> Delivery_Log d = Ok fs -> value_of "serviceId" fs = Some (FS []).
Proof.
  intros ver seq f d fs E L. unfold Delivery_Decode in E. cbv zeta in E. do 6 (apply bind_ok in E as (? & _ & E)). apply bind_ok in E as ([[? ?] ?] & _ & E). do 3 (apply bind_ok in E as (? & _ & E)).
  apply bind_ok in E as ([? ?] & _ & E). apply bind_ok in E as (? & _ & E). injection E as <-. unfold Delivery_Log in L. apply bind_ok in L as (m & _ & L). injection L as <-. reflexivity.
Qed.
Print Assumptions C135_cmpp_deliver.
Print Assumptions C135_sgip_deliver.
Print Assumptions C135_smgp_deliver.
Print Assumptions C135_refuted_service.
Print Assumptions C135_cmpp.
Print Assumptions C135_sgip.
Print Assumptions C135_smgp.
Print Assumptions C135_length_partial.
Print Assumptions C135_refuted_length.

(** ** Cases *)
(** A version 2 submit of two parts' first, to [n] numbers, with the text "Hi". *)
Definition cmpp_body (n : nat) : bytes :=
  repeat 0 8 ++ [2; 1; 1; 7] ++ [83;86] ++ repeat 0 8 ++ [3] ++ [49;51;56] ++ repeat 0 18 ++ [4; 5; 8] ++ [57;48;48;48;48;49] ++ [48;49] ++ [48;49;50;0;0;0] ++
  [86] ++ repeat 0 16 ++ [65] ++ repeat 0 16 ++ [49;48;54] ++ repeat 0 18 ++ [Z.of_nat n] ++ repeat 49 (21 * n) ++ [2; 72; 105] ++ repeat 0 8.
Example C135_case_cmpp : exists s fs, Submit_Decode 32 9 (cmpp_body 1) = Ok s /\ Submit_Log s = Ok fs /\ nth_error (cmpp_body 1) 116 = Some 1 /\ value_of "priority" fs = Some (FN 7) /\
  value_of "serviceId" fs = Some (FS [83;86]) /\ value_of "spNumber" fs = Some (FS [49;48;54]) /\ value_of "atTime" fs = Some (FS [65]) /\ value_of "msgLength" fs = Some (FN 2).
Proof. eexists _, _. split; [vm_compute; reflexivity|]. split; [vm_compute; reflexivity|]. repeat split; vm_compute; reflexivity. Qed.
Example C135_case_length : exists s fs, Submit_Decode 32 9 (cmpp_body 13) = Ok s /\ Submit_Log s = Ok fs /\ value_of "userCount" fs = Some (FN 13) /\ value_of "msgLength" fs = Some (FN 49).
Proof. eexists _, _. split; [vm_compute; reflexivity|]. split; [vm_compute; reflexivity|]. split; vm_compute; reflexivity. Qed.
Definition cmpp3_body : bytes :=
  repeat 0 8 ++ [2; 1; 1; 7] ++ [83;86] ++ repeat 0 8 ++ [3] ++ [49;51;56] ++ repeat 0 29 ++ [6] ++ [4; 5; 8] ++ [57;48;48;48;48;49] ++ [48;49] ++ [48;49;50;0;0;0] ++
  [86] ++ repeat 0 16 ++ [65] ++ repeat 0 16 ++ [49;48;54] ++ repeat 0 18 ++ [1] ++ repeat 49 32 ++ [0; 2; 72; 105] ++ [76] ++ repeat 0 19.
Example C135_case_cmpp3 : exists s fs, Submit_Decode 48 9 cmpp3_body = Ok s /\ Submit_Log s = Ok fs /\ nth_error cmpp3_body 128 = Some 1 /\ nth_error cmpp3_body 162 = Some 2 /\
  value_of "feeTerminalType" fs = Some (FN 6) /\ value_of "linkID" fs = Some (FS [76]).
Proof. eexists _, _. split; [vm_compute; reflexivity|]. split; [vm_compute; reflexivity|]. repeat split; vm_compute; reflexivity. Qed.
Definition sgip_body : bytes :=
  [0;0;0;5;0;0;0;6] ++ [49;48;54] ++ repeat 0 18 ++ [49;51;56] ++ repeat 0 18 ++ [1] ++ repeat 49 21 ++ [57;57;57;57;57] ++ [83] ++ repeat 0 9 ++ [1] ++ [48;49;0;0;0;0] ++ [48;50;0;0;0;0] ++
  [2; 3; 4] ++ [86] ++ repeat 0 15 ++ [65] ++ repeat 0 15 ++ [1; 5; 6; 15; 7; 0; 0; 0; 2; 72; 105] ++ repeat 0 8.
Example C135_case_sgip : exists s fs, SSubmit_Decode 3 sgip_body = Ok s /\ SSubmit_Log s = Ok fs /\ nth_error sgip_body 50 = Some 1 /\ value_of "givenValue" fs = Some (FS [48;50]) /\
  value_of "clientId" fs = Some (FS [57;57;57;57;57]) /\ value_of "msgType" fs = Some (FN 7) /\ value_of "msgLength" fs = Some (FN 2).
Proof. eexists _, _. split; [vm_compute; reflexivity|]. split; [vm_compute; reflexivity|]. repeat split; vm_compute; reflexivity. Qed.
Definition smgp_body : bytes :=
  [6; 1; 3] ++ [83] ++ repeat 0 9 ++ [48;48] ++ [48;49;0;0;0;0] ++ [48;50;0;0;0;0] ++ [15] ++ [86] ++ repeat 0 16 ++ [65] ++ repeat 0 16 ++ [49;48;54] ++ repeat 0 18 ++ [49;51;57] ++ repeat 0 18 ++ [1] ++ repeat 49 21 ++ [2; 72; 105] ++ repeat 0 8.
Example C135_case_smgp : exists s fs, MSubmit_Decode Some 48 9 smgp_body = Ok s /\ MSubmit_Log s = Ok fs /\ nth_error smgp_body 104 = Some 1 /\ value_of "fixedFee" fs = Some (FS [48;50]) /\
  value_of "chargeTermID" fs = Some (FS [49;51;57]) /\ value_of "msgLength" fs = Some (FN 2) /\ value_of "seq" fs = Some (FN 9).
Proof. eexists _, _. split; [vm_compute; reflexivity|]. split; [vm_compute; reflexivity|]. repeat split; vm_compute; reflexivity. Qed.
(** A CMPP 3 delivery, not a report, of the service "SV". *)
Definition dly_body : bytes :=
  [0;0;0;0;0;0;1;2] ++ [49;48;54] ++ repeat 0 18 ++ [83;86] ++ repeat 0 8 ++ [1; 2; 8] ++ [49;51;56] ++ repeat 0 29 ++ [3] ++ [0; 2; 72; 105] ++ [76] ++ repeat 0 19.
Example C135_case_deliver : exists d fs, Delivery_Decode 48 9 dly_body = Ok d /\ Delivery_Log d = Ok fs /\ nth_error dly_body 76 = Some 2 /\ value_of "linkID" fs = Some (FS [76]) /\
  value_of "srcTerminalType" fs = Some (FN 3) /\ value_of "serviceId" fs = Some (FS []) /\ value_of "msgFmt" fs = Some (FN 8).
Proof. eexists _, _. split; [vm_compute; reflexivity|]. split; [vm_compute; reflexivity|]. repeat split; vm_compute; reflexivity. Qed.
Definition srep_body : bytes := [0;0;0;5;0;0;0;6; 0;0;0;1;0;0;0;2;0;0;0;3; 0] ++ [49;51;56] ++ repeat 0 18 ++ [2; 27] ++ repeat 0 8.
Example C135_case_report : exists r fs, SReport_Decode 3 srep_body = Ok r /\ SReport_Log (fun _ => []) r = Ok fs /\ value_of "userNumber" fs = Some (FS [49;51;56]) /\ value_of "errorCode" fs = Some (FN 27).
Proof. eexists _, _. split; [vm_compute; reflexivity|]. split; [vm_compute; reflexivity|]. split; vm_compute; reflexivity. Qed.

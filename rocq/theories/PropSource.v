(** * PropSource: under which number a client may send (C121). *)
From Verif Require Import Base UtilsModel UtilsProofs OptionsModel SpecText SpecWire SpecFrame CmppModel WireProofs CmppSubmitProofs PropCmpp CmppBuildProofs SgipModel SmgpModel SmgpProofs
  FrameModel SpecServer ServerModel ServerProofs PropServer PropWindow PropResponses PropCmpp2 PropAnswers.
From Verif Require PropPong PropWhy PropFate PropEnd PropUnasked PropSubmitEnd.

(** ** Specification, on the octets of the submit *)
(** [n] octets from place [i] on; the text in a field ends at the first zero octet. *)
Definition octs (b : bytes) (i n : nat) : bytes := firstn n (skipn i b).
Fixpoint text (l : bytes) : bytes := match l with [] => [] | x :: r => if x =? 0 then [] else x :: text r end.
(** The number the submit [k] is sent from ([v3]: laid out as CMPP version 3), and its priority: CMPP
    0 to 9, SMGP 0 to 3, SGIP 0 to 9 behind the list of recipients. *)
Definition source (p : proto) (v3 : bool) (k : packet) : bytes :=
  text (octs (pk_body k) (match p with P_CMPP => if v3 then 107 else 95 | P_SGIP => 8 | P_SMGP => 62 end) 21).
Definition level (p : proto) (k : packet) : Z :=
  nth (match p with P_CMPP => 11 | P_SGIP => 81 + 21 * Z.to_nat (nth 50 (pk_body k) 0%Z) | P_SMGP => 2 end)%nat (pk_body k) 0.
(** The submit may be sent by a client of account [a]: its number starts with the account's and its
    priority exists. *)
Definition allowed (p : proto) (v3 : bool) (a : authconf) (k : packet) : Prop :=
  (exists rest, source p v3 k = ac_SmsDisplayNo a ++ rest) /\ level p k < match p with P_SMGP => 4 | _ => 10 end.

(** ** Model *)
(** strings.HasPrefix *)
Definition HasPrefix (s t : bytes) : bool := beqb (firstn (length t) s) t.
(** cmpp_submit.go:92-102 cmppSubmitPacketCheck, sgip_submit.go:88-98, smgp_submit.go:93-103: the value of
    [check] at the end, and the result, 0 in any case.  A missing account is a nil dereference. *)
Definition SubmitPacketCheck (r : request) (cli : option authconf) : res (bool * Z) :=
  match cli with
  | None => Panic
  | Some a =>
    let check := match r with
                 | QCmpp s => HasPrefix (sb_srcId s) (ac_SmsDisplayNo a)
                 | QSgip s => HasPrefix (ss_SPNumber s) (ac_SmsDisplayNo a)
                 | QSmgp s => HasPrefix (ms_srcTermID s) (ac_SmsDisplayNo a)
                 end in
    let check := if check then match r with QCmpp s => sb_msgLevel s <? 10 | QSgip s => ss_Priority s <? 10 | QSmgp s => ms_priority s <? 4 end else check in
    Ok (check, 0)
  end.
(** handleCmppSubmit (cmpp_submit.go:64-76), handleSgipSubmit, handleSmgpSubmit begin with it; [work]
    (ServerModel.v) keeps of it what matters. *)
Lemma work_check pr o k r c : work pr o (JSubmit k r) c =
  ('(check, result) <- SubmitPacketCheck r (pr_find pr (o_gen o) (se_cid (sc_sess c))) ;;
   if negb (pr_delay_ok pr) then Panic
   else
     let code := if o_busy o then busy_code (pr_p pr) else result in
     '(a, c1) <- sendSubmitResponse k r false code o c ;;
     Ok (c1, if code =? 0 then PReport a else PRelease)).
Proof. unfold work, SubmitPacketCheck. destruct (pr_find _ _ _); reflexivity. Qed.

(** ** Proofs *)
Lemma has_prefix s t : HasPrefix s t = true <-> exists rest, s = t ++ rest.
Proof.
  unfold HasPrefix. rewrite beqb_iff. split.
  - intros H. exists (skipn (length t) s). rewrite <- H at 1. symmetry. apply firstn_skipn.
  - intros [rest ->]. rewrite firstn_app, Nat.sub_diag, firstn_O, app_nil_r. apply firstn_all.
Qed.
Lemma trim_text s : TrimStr s = text s. Proof. exact (PropFate.trim_upto s). Qed.
Lemma users_index f : forall n i l j, get_users f i n = Ok (l, j) -> j = i + 21 * Z.of_nat n.
Proof.
  induction n as [|n IH]; intros i l j H; cbn [get_users] in H; [injection H as _ <-; lia|].
  apply bind_ok in H as (x & _ & H). apply bind_ok in H as ([l' j'] & E & H). injection H as _ <-. apply IH in E. lia.
Qed.
Theorem C121_check : forall pr ver k r a, decode_submit pr ver k = Ok r ->
  exists check, SubmitPacketCheck r (Some a) = Ok (check, 0) /\ (check = true <-> allowed (pr_p pr) (is_v3 ver) a k).
Proof.
  intros pr ver k r a D. eexists. split; [reflexivity|]. unfold allowed. rewrite <- has_prefix.
  assert (X : forall (x : bool) (y z : Z), (if x then y <? z else x) = true <-> x = true /\ y < z) by (intros [|] y z; rewrite ?Z.ltb_lt; intuition discriminate).
  unfold decode_submit in D. destruct (pr_p pr) eqn:P; apply bind_ok in D as (s & D & E); injection E as <-; rewrite X; clear X.
  - unfold Submit_Decode in D. inv_bind D. injection D as <-. cbn [sb_srcId sb_msgLevel]. rewrite trim_text. unfold source, level.
    destruct (is_v3 ver); match goal with H : bind _ _ = Ok (_, _, _) |- _ => repeat (let q := fresh in apply bind_ok in H as (q & _ & H)); injection H as <- <- <- end;
    match goal with |- HasPrefix (text ?x) _ = true /\ ?y < _ <-> _ => match goal with H : slice _ _ _ = Ok x, G : at_ _ _ = Ok y |- _ => apply PropFate.slice_oct in H as [-> _]; apply PropFate.at_nth in G; rewrite G end end; reflexivity.
  - unfold SSubmit_Decode in D. inv_bind D. injection D as <-. cbn [ss_SPNumber ss_Priority]. rewrite trim_text. unfold source, level.
    match goal with |- HasPrefix (text ?x) _ = true /\ ?y < _ <-> _ => match goal with H : slice _ _ _ = Ok x, G : at_ _ _ = Ok y, U : get_users _ _ (Z.to_nat ?n) = Ok (_, ?j), N : at_ _ 50 = Ok ?n |- _ =>
      apply PropFate.slice_oct in H as [-> _]; apply PropFate.at_nth in G; apply users_index in U; apply PropFate.at_nth in N; change (Z.to_nat 50) with 50%nat in N; rewrite G, <- N;
      replace (81 + 21 * Z.to_nat n)%nat with (Z.to_nat (j + 5 + 10 + 1 + 6 + 6 + 1 + 1)) by lia end end. reflexivity.
  - unfold MSubmit_Decode in D. inv_bind D. injection D as <-. cbn [ms_srcTermID ms_priority]. rewrite trim_text. unfold source, level.
    match goal with |- HasPrefix (text ?x) _ = true /\ ?y < _ <-> _ => match goal with H : slice _ _ _ = Ok x, G : at_ _ _ = Ok y |- _ => apply PropFate.slice_oct in H as [-> _]; apply PropFate.at_nth in G; rewrite G end end; reflexivity.
Qed.
Print Assumptions C121_check.

(** ** Theorems *)
(** C121, what the server says: the status in every answer to a submit, by its octets, is 0 or one of those
    that stand for too much load.  None is refused for its number or its priority. *)
Definition submit_response (p : proto) : bytes := match p with P_CMPP => [128;0;0;4] | P_SGIP => [128;0;0;3] | P_SMGP => [128;0;0;2] end.
Definition status (p : proto) (b : bytes) : Z := match p with P_SGIP => nth 20 b 0 | P_CMPP => unbe (skipn 20 b) | P_SMGP => unbe (skipn 22 b) end.
Lemma unbe_one x : 0 <= x < 256 -> unbe [x] = x.
Proof. intros H. cbn. lia. Qed.
Theorem C121_partial : forall pr now es c kd b, segs_ok es -> PropFate.values_ok (pr_p pr) es -> PropUnasked.delivers (pr_p pr) es -> run pr (opened now) es = Ok c ->
  In (OOut kd b) (sc_log c) -> octs b 4 4 = submit_response (pr_p pr) ->
  In (status (pr_p pr) b) (match pr_p pr with P_CMPP => [0; 8] | P_SGIP => [0; 33] | P_SMGP => [0; 1; 75] end).
Proof.
  intros pr now es c kd b S1 V D R1 L X.
  pose proof (PropUnasked.written pr now es c kd b S1 V D R1 L) as W. pose proof (PropUnasked.as_log _ _ _ _ _ (PropUnasked.asked_run pr (fun _ => true) es _ _ D (PropUnasked.asked_opened pr (fun _ => true) now) R1) kd b L) as O1.
  change (PropUnasked.command b) with (octs b 4 4) in W. rewrite X in W.
  assert (K : exists k x code, kd = KSubmit k x code).
  { destruct kd as [k code|k x code|k|k|k| | |]; cbn [PropUnasked.for_packet PropUnasked.own_one] in W, O1; try solve [eauto]; exfalso; try solve [destruct (pr_p pr); cbn in W; repeat destruct W as [W|W]; try discriminate W; exact W].
    - destruct W as (W & _). rewrite PropUnasked.answering_of, O1 in W. destruct (pr_p pr); discriminate W.
    - destruct (PropPong.C107_answers pr now es c S1 R1) as [_ Y]. destruct (Y k (KActive k) b L (or_introl eq_refl)) as [Z1 _]. destruct W as (W & _). rewrite PropUnasked.answering_of in W. clear Y.
      unfold PropPong.asked in Z1. destruct (pr_p pr); repeat match type of Z1 with (if ?x =? ?y then _ else _) = _ => destruct (x =? y) eqn:? end; try discriminate Z1;
        repeat match goal with E : (_ =? _) = true |- _ => apply Z.eqb_eq in E; rewrite E in W end; discriminate W.
    - destruct (PropPong.C107_answers pr now es c S1 R1) as [_ Y]. destruct (Y k (KTerm k) b L (or_intror eq_refl)) as [Z1 _]. destruct W as (W & _). rewrite PropUnasked.answering_of in W. clear Y.
      unfold PropPong.asked in Z1. destruct (pr_p pr); repeat match type of Z1 with (if ?x =? ?y then _ else _) = _ => destruct (x =? y) eqn:? end; try discriminate Z1;
        repeat match goal with E : (_ =? _) = true |- _ => apply Z.eqb_eq in E; rewrite E in W end; discriminate W. }
  destruct K as (k & x & code & ->). destruct (C51_answers pr now es c S1 (PropFate.values_ids _ _ V) R1) as (_ & Y & _). destruct (Y _ _ _ _ L) as [A B]. clear Y.
  assert (B' : 0 <= code < 256 /\ In code (match pr_p pr with P_CMPP => [0; 8] | P_SGIP => [0; 33] | P_SMGP => [0; 1; 75] end)) by (unfold result_ok in B; destruct (pr_p pr), x; cbn; lia).
  destruct B' as [B1 B2]. replace (status (pr_p pr) b) with code; [exact B2|]. symmetry. unfold submit_answer in A. unfold status. destruct (pr_p pr).
  - destruct A as (_ & [(_ & ->)|(_ & ->)]); [rewrite unbe_be; apply Z.mod_small; change (256 ^ Z.of_nat 4) with 4294967296; lia|apply unbe_one; lia].
  - apply A.
  - destruct A as (_ & _ & ->). rewrite unbe_be. apply Z.mod_small. change (256 ^ Z.of_nat 4) with 4294967296. lia.
Qed.
Print Assumptions C121_partial.

(** C121, refuted for every submit: on an open, logged-in connection with nothing queued and a free place
    in its window, a well-formed submit that is let through and not struck by the simulated failure is taken
    with status 0, whatever its number and priority, whatever the account says. *)
Theorem C121_refuted_sent : forall pr now es c seg k rest r g oa ob oc od, segs_ok es -> run pr (opened now) es = Ok c -> calm pr (opened now) es ->
  sc_open c = true -> se_stat (sc_sess c) = StatLogin -> sc_queue c = [] -> se_win (sc_sess c) = Some g -> ch_len (get_chan c g) < ch_cap (get_chan c g) ->
  bytes_ok seg -> DecodeAndCheckHeader (pr_p pr) (pr_drain pr) (sc_buf c ++ seg) = Ok (FPass k rest) -> is_submit (pr_p pr) k ->
  decode_submit pr (se_ver (sc_sess c)) k = Ok r ->
  o_acc oa = true -> o_lim oa = true -> pr_delay_ok pr = true -> o_busy oc = false -> zlen (o_id oc) = 10 ->
  pr_find pr (o_gen oc) (se_cid (sc_sess c)) <> None ->
  let n := length (sc_tasks c) in
  exists c' ka a, run pr c [(ERecv seg, oa); (ETask n, ob); (ETask n, oc); (EWrite, od)] = Ok c' /\
    sc_log c' = sc_log c ++ [OGot k; OServe k false; OOut ka a] /\ submit_answer (pr_p pr) k 0 a.
Proof.
  intros pr now es c seg k rest r g oa ob oc od S0 R1 C O ST QE GW FREE SO F HK D AC LI DL NB V1 F1 n.
  pose proof (win_run pr es _ _ (win_opened now) R1 O C) as (CO & W). rewrite GW in W. destruct W as (W1 & W2 & W3 & _).
  assert (FB : bytes_ok (sc_buf c)) by (apply (PropPong.right_run pr es _ _ S0 (PropPong.right_opened pr now) R1)).
  assert (Hb : bytes_ok (pk_body k)) by (apply (dch_bytes _ _ _ _ _ (proj2 (Forall_app _ _ _) (conj FB SO)) F)).
  set (c2 := spawn (note (note c (OGot k)) (OServe k false)) (JSubmit k r)).
  assert (A : act pr oa HSubmit k c = Ok (ANone, c2)).
  { unfold act. cbv zeta. change (sc_sess (note c (OGot k))) with (sc_sess c). unfold sessionCheck. rewrite ST. cbn [negb]. rewrite D, W3, AC, LI. reflexivity. }
  assert (HC : handler_cmd (pr_p pr) HSubmit = pk_cmd k) by (unfold is_submit in HK; rewrite HK; destruct (pr_p pr); reflexivity).
  assert (HI : In HSubmit (handlers (pr_p pr))) by (destruct (pr_p pr); cbn; auto).
  assert (CH : forall hs, NoDup (map (handler_cmd (pr_p pr)) hs) -> In HSubmit hs -> ExecuteChain (pr_p pr) (act pr oa) hs k c = Ok (ANone, c2)).
  { induction hs as [|h0 hs IH]; [intros _ []|]; intros ND [->|Hi].
    - cbn [ExecuteChain]. unfold handler. rewrite HC, Z.eqb_refl. cbn [negb]. rewrite A. reflexivity.
    - cbn [ExecuteChain]. unfold handler. cbn [map] in ND. inversion ND as [|? ? N1 N2]; subst.
      replace (handler_cmd (pr_p pr) h0 =? pk_cmd k) with false.
      2:{ symmetry. apply Z.eqb_neq. intros E. apply N1. rewrite E, <- HC. apply in_map. exact Hi. }
      cbn [negb bind]. apply IH; assumption. }
  assert (S1 : step pr c (ERecv seg, oa) = Ok (with_buf c2 rest)).
  { cbn [step]. unfold on_recv. rewrite O. cbn [negb]. unfold OnTraffic. rewrite F. cbn [bind]. rewrite CH; [reflexivity|apply handlers_nodup|exact HI]. }
  assert (N2 : nth_error (sc_tasks (with_buf c2 rest)) n = Some (JSubmit k r, PStart)) by apply PropFate.nth_end.
  set (lg := (sc_log c ++ [OGot k]) ++ [OServe k false]).
  set (ch := upd (sc_chans c) g (ServerModel.plus (get_chan c g) 1)).
  assert (T3 : on_task pr ob n (with_buf c2 rest) = SConn rest (sc_open c) (sc_sess c) ch (sc_tasks c ++ [(JSubmit k r, PWork)]) [] (sc_wish c) lg).
  { unfold on_task. rewrite N2. cbn [plain_job]. change (se_win (sc_sess (with_buf c2 rest))) with (se_win (sc_sess c)). rewrite GW. unfold try_send. change (get_chan (with_buf c2 rest) g) with (get_chan c g).
    rewrite W2. replace (_ <? _) with true by lia. unfold set_chan, with_chans, with_tasks, c2, spawn, note, with_buf. cbn [sc_buf sc_open sc_sess sc_chans sc_tasks sc_queue sc_wish sc_log with_tasks].
    unfold n. rewrite PropFate.upd_last, QE. reflexivity. }
  destruct (reply_ok pr _ k r 0 oc D Hb V1) as (a & EA & SA); [lia|].
  assert (T4 : on_task pr oc n (SConn rest (sc_open c) (sc_sess c) ch (sc_tasks c ++ [(JSubmit k r, PWork)]) [] (sc_wish c) lg)
             = SConn rest (sc_open c) (sc_sess c) ch (sc_tasks c ++ [(JSubmit k r, PReport (submit_reply r 0 oc))]) [(KSubmit k false 0, a, CbSubmit 0)] (sc_wish c) lg).
  { unfold on_task. cbn [sc_tasks]. unfold n at 1. rewrite PropFate.nth_end. cbn [plain_job sc_sess]. rewrite work_check. cbn [sc_sess]. destruct (pr_find pr (o_gen oc) (se_cid (sc_sess c))) as [ac|]; [|congruence]. cbn [SubmitPacketCheck bind]. rewrite DL, NB. cbn [negb].
    unfold sendSubmitResponse. rewrite EA. cbn [bind]. unfold AsyncWrite. cbn [sc_sess]. rewrite CO. cbn [bind]. change (0 =? 0) with true. cbv iota. unfold with_tasks, with_queue. cbn [sc_buf sc_open sc_sess sc_chans sc_tasks sc_queue sc_wish sc_log app].
    unfold n. rewrite PropFate.upd_last. reflexivity. }
  cbn [run]. rewrite S1. cbn [bind step]. rewrite T3. cbn [bind]. rewrite T4. cbn [bind]. unfold on_write. cbn [sc_open sc_queue]. rewrite O.
  cbn [callback]. change (0 =? 0) with true. cbv iota. cbn [bind]. unfold note, with_queue, with_sess. cbn [sc_open sc_queue sc_sess sc_buf sc_chans sc_tasks sc_wish sc_log].
  eexists. exists (KSubmit k false 0), a. split; [reflexivity|]. cbn [sc_log]. split; [unfold lg; rewrite <- !app_assoc; reflexivity|exact SA].
Qed.
Print Assumptions C121_refuted_sent.

(** ** Cases *)
(** A submit from the number 95 with priority [lv]; the account's number is 10. *)
Definition src_body (p : proto) (lv : Z) : bytes :=
  let z := repeat 0 in
  match p with
  | P_SMGP => [6; 0; lv] ++ z 59%nat ++ [57; 53] ++ z 40%nat ++ [1] ++ [49; 51; 56] ++ z 18%nat ++ [5; 72; 101; 108; 108; 111] ++ z 8%nat
  | P_CMPP => z 8%nat ++ [1; 1; 0; lv] ++ z 10%nat ++ [2] ++ z 84%nat ++ [57; 53] ++ z 19%nat ++ [1] ++ [49; 51; 56] ++ z 29%nat ++ [0; 5; 72; 101; 108; 108; 111] ++ z 20%nat
  | P_SGIP => [0;0;0;8;0;0;0;9; 57; 53] ++ z 40%nat ++ [1] ++ [49; 51; 56] ++ z 18%nat ++ z 30%nat ++ [lv] ++ z 37%nat ++ [0;0;0;5; 72; 101; 108; 108; 111] ++ z 8%nat
  end.
Definition src_pk (p : proto) (lv : Z) : packet := Packet (match p with P_CMPP => 4 | P_SGIP => 3 | P_SMGP => 2 end) 7 (src_body p lv).
Definition src_es (p : proto) (lv : Z) : list (event * orc) := PropWhy.wy_es p 0 (PropEnd.end_id p) [115; 51] 48 ++
  map (fun e => (e, PropFate.fate_orc true false 6)) [ERecv (wire_of (pk_cmd (src_pk p lv)) 7 (src_body p lv)); ETask 0; ETask 0; EWrite].
Definition src_says (p : proto) (lv : Z) : option (list Z) :=
  match run (PropEnd.end_pr p) (opened 0) (src_es p lv) with
  | Ok c => Some (flat_map (fun o => match o with OOut _ b => if beqb (octs b 4 4) (submit_response p) then [status p b] else [] | _ => [] end) (sc_log c))
  | _ => None
  end.
Example C121_case : forall p, In p [P_CMPP; P_SGIP; P_SMGP] -> src_says p 200 = Some [0] /\ source p true (src_pk p 200) = [57; 53] /\ level p (src_pk p 200) = 200.
Proof. intros p H. repeat destruct H as [<-|H]; try destruct H; vm_compute; auto. Qed.
(** C121, refuted for all three protocols: a client of the account with the number 10 sends from 95, with a
    priority that does not exist; its submit is taken. *)
Theorem C121_refuted : forall p, exists es c k a b kd, segs_ok es /\ PropFate.values_ok p es /\ run (PropEnd.end_pr p) (opened 0) es = Ok c /\
  pr_find (PropEnd.end_pr p) 0 (se_cid (sc_sess c)) = Some a /\ In (OGot k) (sc_log c) /\ is_submit p k /\
  (forall v3, ~ exists rest, source p v3 k = ac_SmsDisplayNo a ++ rest) /\ 10 <= level p k /\
  In (OOut kd b) (sc_log c) /\ submit_answer p k 0 b.
Proof.
  intros p. assert (X : match run (PropEnd.end_pr p) (opened 0) (src_es p 200) with
    | Ok c => se_cid (sc_sess c) = PropEnd.end_id p /\ existsb (PropWhy.came (src_pk p 200)) (sc_log c) = true /\
              existsb (fun o => match o with OOut (KSubmit k false 0) _ => same_pk k (src_pk p 200) | _ => false end) (sc_log c) = true
    | _ => False end) by (destruct p; vm_compute; auto).
  destruct (run (PropEnd.end_pr p) (opened 0) (src_es p 200)) as [c| |] eqn:E; [|destruct X|destruct X]. destruct X as (X1 & X2 & X3).
  apply existsb_exists in X3 as (o & Ho & Co). destruct o as [| | |kd b|]; try discriminate. destruct kd as [|k x code| | | | | |]; try discriminate Co. destruct x; [discriminate|]. destruct code; try discriminate Co. apply same_pk_iff in Co. subst k.
  assert (X6 : In (OGot (src_pk p 200)) (sc_log c)).
  { apply existsb_exists in X2 as (o & Ho2 & Co2). destruct o; try discriminate. cbn [PropWhy.came] in Co2. apply same_pk_iff in Co2. rewrite Co2. exact Ho2. }
  assert (S1 : segs_ok (src_es p 200)).
  { unfold segs_ok, src_es, PropWhy.wy_es. cbn [map app]. repeat (apply Forall_cons; [first [exact Logic.I|apply PropSubmitEnd.bytes_by; destruct p; vm_compute; reflexivity]|]). constructor. }
  assert (V : PropFate.values_ok p (src_es p 200)).
  { unfold PropFate.values_ok, src_es, PropWhy.wy_es. cbn [map app]. repeat (apply Forall_cons; [cbn [snd]; repeat (split; [vm_compute; congruence|]); discriminate|]). constructor. }
  exists (src_es p 200), c, (src_pk p 200), (PropEnd.end_acc (PropEnd.end_id p) [115;51]), b, (KSubmit (src_pk p 200) false 0).
  split; [exact S1|]. split; [exact V|]. split; [exact E|]. split; [rewrite X1; destruct p; reflexivity|]. split; [exact X6|]. split; [destruct p; reflexivity|].
  split. { intros v3 [rest H]. destruct p, v3; vm_compute in H; discriminate H. }
  split; [destruct p; vm_compute; congruence|]. split; [exact Ho|].
  change p with (pr_p (PropEnd.end_pr p)) in V |- *. destruct (C51_answers (PropEnd.end_pr p) 0 (src_es p 200) c S1 (PropFate.values_ids _ _ V) E) as (_ & Y & _). apply (Y _ _ _ _ Ho).
Qed.
Print Assumptions C121_refuted.
(** The situation of [C121_refuted_sent] is met after a login. *)
Example C121_sent_ex : forall p,
  match run (PropEnd.end_pr p) (opened 0) (PropWhy.wy_es p 0 (PropEnd.end_id p) [115; 51] 48) with
  | Ok c => (sc_open c = true /\ se_stat (sc_sess c) = StatLogin /\ sc_queue c = [] /\ se_win (sc_sess c) = Some 0%nat /\ ch_len (get_chan c 0) < ch_cap (get_chan c 0)) /\
      DecodeAndCheckHeader p true (sc_buf c ++ wire_of (pk_cmd (src_pk p 200)) 7 (src_body p 200)) = Ok (FPass (src_pk p 200) []) /\
      exists r, decode_submit (PropEnd.end_pr p) (se_ver (sc_sess c)) (src_pk p 200) = Ok r
  | _ => False
  end.
Proof. intros p. destruct p; (vm_compute; split; [repeat split|]; split; [reflexivity|]; eexists; reflexivity). Qed.

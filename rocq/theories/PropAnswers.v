(** * PropAnswers: property C51 (each submit of a logged-in client gets exactly one answer). *)
From Verif Require Import Base UtilsModel OptionsModel SpecText SpecWire CmppModel PropCmpp CmppBuildProofs SgipModel SmgpModel
  FrameModel SpecServer ServerModel ServerProofs PropServer PropWindow PropResponses PropCmpp2.

(** ** A decoded submit can always be answered *)
Lemma splice_tail f lo src : 0 <= lo -> lo + zlen src = zlen f -> skipn (Z.to_nat lo) (splice f lo src) = src /\ zlen (splice f lo src) = zlen f.
Proof.
  intros H1 H2. unfold splice, zlen in *. assert (L : length (firstn (Z.to_nat lo) f) = Z.to_nat lo) by (rewrite firstn_length; lia).
  rewrite skipn_app, L, Nat.sub_diag. rewrite (skipn_all2 (firstn _ _)) by lia. rewrite (skipn_all2 (n := _ + _)) by lia. rewrite app_nil_r.
  split; [reflexivity|]. rewrite app_length, L. lia.
Qed.
Lemma put_tail n f lo v f' : put_be n f lo (lo + Z.of_nat n) v = Ok f' -> zlen f' = lo + Z.of_nat n -> skipn (Z.to_nat lo) f' = be n v.
Proof.
  unfold put_be. destruct (_ && _ && _ && _) eqn:G; [|discriminate]. intros H L. assert (E : splice f lo (be n v) = f') by congruence. subst f'.
  assert (ZB : zlen (be n v) = Z.of_nat n) by (autorewrite with zlen; reflexivity). assert (LF : zlen f = lo + Z.of_nat n).
  { unfold splice in L. unfold zlen in *. rewrite !app_length, firstn_length, skipn_length in L. lia. }
  apply splice_tail; lia.
Qed.
Lemma set_val f i v f' : set_at f i v = Ok f' -> nth (Z.to_nat i) f' 0 = v.
Proof.
  unfold set_at. destruct (_ && _) eqn:G; [|discriminate]. intros H. assert (E : splice f i [v] = f') by congruence. subst f'. unfold splice, zlen in *.
  rewrite app_nth2; rewrite firstn_length; [|lia]. replace (Z.to_nat i - Nat.min (Z.to_nat i) (length f))%nat with 0%nat by lia. reflexivity.
Qed.
Lemma last_one (b : bytes) : zlen b = 21 -> skipn 20 b = [nth 20 b 0].
Proof.
  intros L. unfold zlen in L. rewrite <- (firstn_skipn 20 b) at 2. rewrite app_nth2; rewrite firstn_length; [|lia].
  replace (20 - Nat.min 20 (length b))%nat with 0%nat by lia. assert (X : length (skipn 20 b) = 1%nat) by (rewrite skipn_length; lia).
  destruct (skipn 20 b) as [|x [|y r]]; try discriminate. reflexivity.
Qed.
Lemma reply_ok pr ver k r code o : decode_submit pr ver k = Ok r -> bytes_ok (pk_body k) -> zlen (o_id o) = 10 -> 0 <= code < 256 ->
  exists b, encode_reply (submit_reply r code o) = Ok b /\ submit_answer (pr_p pr) k code b.
Proof.
  unfold decode_submit. intros D Hb Hi Hc. destruct (pr_p pr); apply bind_ok in D as (s & D & E); injection E as <-; cbn [submit_reply encode_reply submit_answer].
  - destruct (C45_cmpp_submit _ _ _ _ code (o_nid o) D) as (b & Eb & A). exists b. split; [exact Eb|]. split; [exact A|].
    assert (L : zlen b = if is_v3 (sb_version s) then 24 else 21).
    { unfold Submit_ToResponse in Eb. match goal with _ : cresp_Encode (CResp (CHead _ ?cmd ?q) ?m ?c ?v) = _ |- _ => destruct (cresp_run cmd v q m c) as (b' & Eb' & L & _) end.
      rewrite Eb' in Eb. injection Eb as <-. exact L. }
    unfold cresp_Encode in Eb. cbn [Submit_ToResponse rs_h rs_msgId rs_result rs_version] in Eb. apply bind_ok in Eb as (f1 & _ & Eb). apply bind_ok in Eb as (f2 & _ & Eb).
    destruct (is_v3 (sb_version s)).
    + left. split; [exact L|]. exact (put_tail 4 f2 20 code b Eb L).
    + right. split; [exact L|]. rewrite last_one by exact L. f_equal. rewrite (set_val _ _ _ _ Eb : nth 20 b 0 = _). unfold u8. apply Z.mod_small. exact Hc.
  - destruct (C45_sgip_submit _ _ _ code Hb D) as (b & Eb & A1 & A2). exists b. split; [exact Eb|].
    unfold srsp_Encode, SSubmit_ToResponse in Eb. cbn [sr_h sr_status] in Eb. apply bind_ok in Eb as (f1 & E1 & Eb).
    destruct (sh_seq (ss_h s)) as [[q0 q1] q2] eqn:Q.
    destruct (shead_run (SHead 29 (RESP + SG_SUBMIT) (q0, q1, q2)) q0 q1 q2) as (f0 & F0 & _ & L0 & _); [cbn; lia|reflexivity|].
    rewrite F0 in E1. injection E1 as <-. cbn [sh_len] in L0.
    destruct (set_at_run 20 f0 20 (u8 (u8 code))) as (f' & F' & _ & L'); [lia|]. rewrite F' in Eb. injection Eb as <-.
    assert (L : zlen f' = 29) by congruence. unfold answers in A1. rewrite L in A1. split; [exact A1|]. split; [|split; [exact L|]].
    + unfold slice in A2. replace ((0 <=? 12) && (12 <=? 20) && (20 <=? zlen f')) with true in A2 by lia.
      destruct ((0 <=? 0) && (0 <=? 8) && (8 <=? zlen (pk_body k))); [|discriminate]. injection A2 as A2. exact A2.
    + rewrite (set_val _ _ _ _ F' : nth 20 f' 0 = _). unfold u8. rewrite Z.mod_mod by lia. apply Z.mod_small. exact Hc.
  - destruct (C45_smgp_submit _ _ _ _ _ code (o_id o) Hi D) as (b & Eb & A). exists b. split; [exact Eb|].
    unfold MSubmit_ToResponse in Eb. match goal with _ : mresp_Encode (MResp (CHead _ ?cmd ?q) ?m ?c ?v) = _ |- _ => destruct (mresp_run cmd v q m c Hi) as (b' & Eb' & L & _) end.
    rewrite Eb' in Eb. assert (b' = b) by congruence. subst b'. unfold answers in A. rewrite L in A. split; [exact A|]. split; [exact L|].
    unfold mresp_Encode in Eb'. cbn [mr_h mr_msgId mr_status] in Eb'. apply bind_ok in Eb' as (f1 & _ & Eb'). apply bind_ok in Eb' as (f2 & _ & Eb').
    exact (put_tail 4 f2 22 code b Eb' L).
Qed.

(** ** Vocabulary *)
Definition same_pk (k k' : packet) : bool := (pk_cmd k =? pk_cmd k') && (pk_seq k =? pk_seq k') && beqb (pk_body k) (pk_body k').
(** the submit [k] was accepted for processing ([x = false]) or met the rate limit ([x = true]) *)
Definition is_served (k : packet) (x : bool) (o : obs) : bool :=
  match o with OServe k' x' => same_pk k k' && Bool.eqb x x' | _ => false end.
(** a response to it was written *)
Definition is_answer (k : packet) (x : bool) (o : obs) : bool :=
  match o with OOut (KSubmit k' x' _) _ => same_pk k k' && Bool.eqb x x' | _ => false end.
(** a response to it waits in the write queue *)
Definition is_queued (k : packet) (x : bool) (it : item) : bool :=
  match fst (fst it) with KSubmit k' x' _ => same_pk k k' && Bool.eqb x x' | _ => false end.
(** a goroutine has it in hand *)
Definition is_pending (k : packet) (x : bool) (t : task) : bool :=
  match t with
  | (JFlow k' _, _) => same_pk k k' && x
  | (JSubmit k' _, q) => same_pk k k' && negb x && match q with PStart | PSend _ | PWork => true | _ => false end
  | _ => false
  end.
(** responses with result 0 *)
Definition is_good (o : obs) : bool := match o with OOut (KSubmit _ _ code) _ => code =? 0 | _ => false end.
(** the results a response may carry *)
Definition result_ok (p : proto) (x : bool) (code : Z) : Prop :=
  if x then code = match p with P_CMPP => 8 | P_SGIP => 33 | P_SMGP => 1 end
  else code = 0 \/ code = match p with P_CMPP => 8 | P_SGIP => 33 | P_SMGP => 75 end.

Lemma same_pk_iff k k' : same_pk k k' = true <-> k = k'.
Proof.
  unfold same_pk. rewrite !andb_true_iff, !Z.eqb_eq, beqb_iff. destruct k, k'; cbn. split; [intros ((-> & ->) & ->); reflexivity|intros E; injection E as -> -> ->; auto].
Qed.

(** ** What is written *)
Section Ans.
Variable pr : params.
Definition item_fine (it : item) : Prop :=
  match fst (fst it) with
  | KSubmit k x code => snd it = CbSubmit code /\ submit_answer (pr_p pr) k code (snd (fst it)) /\ result_ok (pr_p pr) x code
  | _ => forall code, snd it <> CbSubmit code
  end.
Definition obs_fine (o : obs) : Prop :=
  match o with OOut (KSubmit k x code) b => submit_answer (pr_p pr) k code b /\ result_ok (pr_p pr) x code | _ => True end.
Definition job_fine (j : job) : Prop :=
  match j with JFlow k r | JSubmit k r => (exists ver, decode_submit pr ver k = Ok r) /\ bytes_ok (pk_body k) | _ => True end.
Definition fine (c : sconn) : Prop :=
  bytes_ok (sc_buf c) /\ (forall t, In t (sc_tasks c) -> job_fine (fst t)) /\ (forall it, In it (sc_queue c) -> item_fine it) /\
  (forall o, In o (sc_log c) -> obs_fine o) /\ se_mt (sc_sess c) = u64 (count is_good (sc_log c)).

Lemma fine_note c o : fine c -> obs_fine o -> is_good o = false -> fine (note c o).
Proof.
  intros (A & B & C & D & E) H G. split; [exact A|]. split; [exact B|]. split; [exact C|]. cbn [note sc_log sc_sess]. split.
  - intros x Hx. apply in_app_or in Hx as [Hx|[<-|[]]]; auto.
  - rewrite count_app, count_one, G, Z.add_0_r. exact E.
Qed.
Lemma fine_tasks c ts : fine c -> (forall t, In t ts -> job_fine (fst t)) -> fine (with_tasks c ts).
Proof. intros (A & B & C & D & E) H. repeat (split; [assumption|]). assumption. Qed.
Lemma fine_spawn c j : fine c -> job_fine j -> fine (spawn c j).
Proof. intros H J. apply fine_tasks; [exact H|]. intros t Ht. apply in_app_or in Ht as [Ht|[<-|[]]]; [|exact J]. apply H. exact Ht. Qed.
Lemma fine_buf c b : fine c -> bytes_ok b -> fine (with_buf c b).
Proof. intros (A & B & C & D & E) H. repeat (split; [assumption|]). assumption. Qed.
Lemma fine_items c its : fine c -> (forall it, In it its -> item_fine it) -> fine (with_queue c (sc_queue c ++ its)).
Proof.
  intros (A & B & C & D & E) H. split; [exact A|]. split; [exact B|]. split; [|auto]. cbn. intros it Hi. apply in_app_or in Hi as [Hi|Hi]; auto.
Qed.
Lemma fine_sess c s w : fine c -> se_mt s = se_mt (sc_sess c) -> fine (SConn (sc_buf c) (sc_open c) s (sc_chans c) (sc_tasks c) (sc_queue c) w (sc_log c)).
Proof. intros (A & B & C & D & E) H. split; [exact A|]. split; [exact B|]. split; [exact C|]. split; [exact D|]. cbn. congruence. Qed.
Lemma fine_chans c l : fine c -> fine (with_chans c l). Proof. auto. Qed.
Lemma fine_close c : fine c -> fine (OnClose c).
Proof.
  intros H. unfold OnClose. destruct (negb (sc_open c)); [exact H|]. apply fine_note; [|exact I|reflexivity]. destruct H as (A & B & C & D & E).
  split; [exact A|]. split; [exact B|]. split; [intros it []|]. split; [exact D|exact E].
Qed.
Lemma item_job_fine o j it : item_of pr o j it -> job_fine j -> zlen (o_id o) = 10 -> item_fine it.
Proof.
  intros H J Hi. destruct H; cbn [job_fine] in J; unfold item_fine; cbn [fst snd]; try (intros; discriminate).
  - destruct J as [[ver D] Hb]. split; [reflexivity|].
    assert (R : 0 <= flow_code (pr_p pr) < 256) by (destruct (pr_p pr); cbn; lia).
    destruct (reply_ok pr ver k r _ o D Hb Hi R) as (b' & E & A). split; [congruence|]. unfold result_ok, flow_code. reflexivity.
  - destruct J as [[ver D] Hb]. split; [reflexivity|].
    assert (R : 0 <= code < 256) by (subst code; destruct (o_busy o), (pr_p pr); cbn; lia).
    destruct (reply_ok pr ver k r _ o D Hb Hi R) as (b' & E & A). split; [congruence|]. unfold result_ok. subst code. destruct (o_busy o); auto.
Qed.
Lemma fine_task o i c : zlen (o_id o) = 10 -> fine c -> fine (on_task pr o i c).
Proof.
  intros Hi H. destruct (nth_error (sc_tasks c) i) as [[j q]|] eqn:N; [|unfold on_task; rewrite N; exact H].
  assert (HT : forall t, In t (sc_tasks c) -> job_fine (fst t)) by apply H.
  assert (J : job_fine j) by (apply (HT (j, q)); eapply nth_error_In; eauto).
  assert (U : forall q', fine (with_tasks c (upd (sc_tasks c) i (j, q')))).
  { intros q'. apply fine_tasks; [exact H|]. intros t Ht. apply (in_upd _ _ _ _ _ N) in Ht as [->|Ht]; auto. }
  assert (V : fine (with_tasks c (del (sc_tasks c) i))) by (apply fine_tasks; [exact H|]; intros t Ht; apply in_del in Ht; auto).
  assert (P : forall its ts, fine (with_tasks c ts) -> (forall it, In it its -> item_of pr o j it) -> fine (put c its ts)).
  { intros its ts A B. apply (fine_items (with_tasks c ts) its); [exact A|]. intros it Hit. eapply item_job_fine; eauto. }
  destruct (on_task_step pr o i c j q N) as [W F|Ej|it W I1 C1|g W Q|W Q S|W Q|k r it code a Ej Eq I1 C1 Ec Ek Ea|s' its w W Eq Nj SS It Wi|its a k Eq W It|g W Q|W Q]; auto.
  - apply P; [exact V|]. intros x [<-|[]]. exact I1.
  - unfold try_send. destruct (ch_closed _); [exact V|]. destruct (_ <? _); [|apply U]. apply fine_chans, U.
  - apply P; [apply U|]. intros x [<-|[]]. exact I1.
  - assert (M : fine (put c its (upd (sc_tasks c) i (j, PRelease)))).
    { apply P; [apply U|]. intros x Hx. destruct It as [->|(it & -> & I1 & _)]; [destruct Hx|]. destruct Hx as [<-|[]]. exact I1. }
    apply (fine_sess (put c its (upd (sc_tasks c) i (j, PRelease))) s' w M). unfold same_sess in SS. apply SS.
  - apply P; [apply U|]. intros x Hx. destruct It as [->|(it & -> & I1 & _)]; [destruct Hx|]. destruct Hx as [<-|[]]. exact I1.
  - unfold try_recv. destruct (_ <? _); [apply fine_chans; exact V|]. destruct (ch_closed _); [exact V|apply U].
Qed.
Lemma fine_write o c c' : fine c -> on_write o c = Ok c' -> fine c'.
Proof.
  intros H E. unfold on_write in E. destruct (sc_open c); [|injection E as <-; exact H].
  destruct (sc_queue c) as [|[[kd b] f] r] eqn:Q; [injection E as <-; exact H|].
  destruct H as (A & B & C & D & F). assert (IF : item_fine (kd, b, f)) by (apply C; rewrite Q; left; reflexivity).
  assert (CR : forall it, In it r -> item_fine it) by (intros it Hi; apply C; rewrite Q; right; exact Hi).
  assert (OF : obs_fine (OOut kd b)) by (destruct kd; try exact I; cbn in *; apply IF).
  assert (LF : forall x, In x (sc_log c ++ [OOut kd b]) -> obs_fine x) by (intros x Hx; apply in_app_or in Hx as [Hx|[<-|[]]]; auto).
  assert (SUB : (exists k x code, kd = KSubmit k x code /\ f = CbSubmit code) \/ (is_good (OOut kd b) = false /\ forall code, f <> CbSubmit code)).
  { destruct kd; cbn in IF; try (right; split; [reflexivity|exact IF]). left. destruct IF as [-> _]. eauto. }
  destruct SUB as [(k & x & code & -> & ->)|[G NS]].
  - cbn [callback] in E. unfold fine. destruct (code =? 0) eqn:Z0; injection E as <-; cbn [with_sess note with_queue sc_buf sc_tasks sc_queue sc_log sc_sess add_mt se_mt];
      (split; [exact A|]; split; [exact B|]; split; [exact CR|]; split; [exact LF|]); rewrite count_app, count_one; cbn [is_good]; rewrite Z0.
    + rewrite F. unfold u64. rewrite Zplus_mod_idemp_l. reflexivity.
    + rewrite Z.add_0_r. exact F.
  - assert (H1 : fine (note (with_queue c r) (OOut kd b))).
    { apply fine_note; [|exact OF|exact G]. split; [exact A|]. split; [exact B|]. split; [exact CR|]. split; [exact D|exact F]. }
    set (c1 := note _ _) in *. clearbody c1.
    destruct f; cbn [callback] in E; try (injection E as <-; first [exact (fine_sess c1 _ (sc_wish c1) H1 eq_refl)|exact (fine_sess c1 _ true H1 eq_refl)]).
    + assert (FAIL : fine (with_wish (with_sess c1 (set_stat (sc_sess c1) StatClosing)))) by exact (fine_sess c1 (set_stat (sc_sess c1) StatClosing) true H1 eq_refl).
      destruct ac as [ac|]; destruct (code =? 0); try discriminate; try (injection E as <-; exact FAIL).
      apply bind_ok in E as (c2 & E2 & E). injection E as <-. unfold completeLogin in E2. destruct (_ <? 0) eqn:WN; [discriminate|]. injection E2 as <-.
      apply fine_note; [|exact I|reflexivity]. destruct H1 as (A1 & B1 & C1 & D1 & E1). split; [exact A1|]. split; [exact B1|]. split; [exact C1|]. split; [exact D1|exact E1].
    + exfalso. apply (NS code). reflexivity.
Qed.
Lemma fine_step c e c' : fine c -> (match fst e with ERecv s => bytes_ok s | _ => True end) -> zlen (o_id (snd e)) = 10 -> step pr c e = Ok c' -> fine c'.
Proof.
  intros H HS Hi E. destruct e as [[seg|i| | |] o]; cbn [step fst snd] in *.
  - apply on_recv_step in E. assert (BO : bytes_ok (sc_buf c ++ seg)) by (apply Forall_app; split; [apply H|exact HS]).
    destruct E as [O1|O1 F|O1 F|k rest O1 F N|k rest h a c1 O1 F Hin Hc HA]; auto.
    + apply fine_buf; auto.
    + apply fine_close, fine_buf; auto.
    + apply fine_buf; auto. apply (dch_bytes _ _ _ _ _ BO F).
    + destruct (dch_bytes _ _ _ _ _ BO F) as [BB BR].
      assert (G : fine (with_buf c1 rest)).
      { apply fine_buf; [|exact BR]. inversion HA; subst;
          try (apply fine_spawn); try (apply fine_note; [|exact I|reflexivity]); try (apply fine_note; [|exact I|reflexivity]); auto; cbn [job_fine]; auto; try (split; [eauto|exact BB]).
        match goal with D : decode_other _ _ _ = Ok ?j, NJ : forall k r, ?j <> JSubmit k r |- _ => destruct j; try exact I; [|exfalso; eapply NJ; reflexivity] end; discriminate. }
      destruct a; [exact G|apply fine_close; exact G].
  - injection E as <-. apply fine_task; auto.
  - eapply fine_write; eauto.
  - injection E as <-. unfold on_tick. destruct (negb _); [exact H|]. destruct (_ || _); [destruct (o_acc o); [apply fine_spawn|]; solve [exact H|exact I]|].
    destruct (se_stat (sc_sess c)); try exact H. assert (H1 : fine (if o_acc o then spawn c JHeart else c)) by (destruct (o_acc o); [apply fine_spawn|]; solve [exact H|exact I]).
    destruct (o_dly o); [|exact H1]. destruct (o_acc2 o); [|exact H1]. apply fine_spawn; [exact H1|exact I].
  - injection E as <-. apply fine_close. exact H.
Qed.
End Ans.
(** Sequence numbers handed out by the SMGP generator have ten bytes (theorem C16_format). *)
Definition ids_ok (es : list (event * orc)) : Prop := Forall (fun e => zlen (o_id (snd e)) = 10) es.
Lemma fine_run pr es c c' : segs_ok es -> ids_ok es -> fine pr c -> run pr c es = Ok c' -> fine pr c'.
Proof.
  revert c. induction es as [|e es IH]; intros c S D H E; cbn [run] in E; [congruence|].
  apply bind_ok in E as (c1 & E1 & E2). apply (IH c1); auto; [exact (Forall_inv_tail S)|exact (Forall_inv_tail D)|].
  apply (fine_step pr c e c1); auto; [exact (Forall_inv S)|exact (Forall_inv D)].
Qed.
Lemma fine_opened pr now : fine pr (opened now).
Proof. split; [constructor|]. split; [intros t []|]. split; [intros t []|]. split; [intros t []|]. reflexivity. Qed.

(** ** Accounting: no answer without a submit, and no submit forgotten *)
(** Submits [k] (kind [x]) that were served and are neither answered nor in hand: lost ones. *)
Definition lost (k : packet) (x : bool) (c : sconn) : Z :=
  count (is_served k x) (sc_log c) - count (is_answer k x) (sc_log c) - count (is_queued k x) (sc_queue c) - count (is_pending k x) (sc_tasks c).
Definition is_submit (p : proto) (k : packet) : Prop := pk_cmd k = match p with P_CMPP => 4 | P_SGIP => 3 | P_SMGP => 2 end.
(** What a server needs in order not to lose a submit: the pool takes the goroutine when a packet
    arrives, the simulated delay is configured sensibly, and the account can be found by its own
    id again. *)
Definition taken (e : event * orc) : Prop := match fst e with ERecv _ => o_acc (snd e) = true | _ => True end.
Definition able (pr : params) (o : orc) (c : sconn) : Prop :=
  pr_delay_ok pr = true /\ (se_win (sc_sess c) <> None -> pr_find pr (o_gen o) (se_cid (sc_sess c)) <> None).

Lemma lost_note k x c o : lost k x (note c o) = lost k x c + (if is_served k x o then 1 else 0) - (if is_answer k x o then 1 else 0).
Proof. unfold lost, note. cbn [sc_log sc_queue sc_tasks]. rewrite !count_app, !count_one. lia. Qed.
Lemma lost_spawn k x c j : lost k x (spawn c j) = lost k x c - (if is_pending k x (j, PStart) then 1 else 0).
Proof. unfold lost, spawn, with_tasks. cbn [sc_log sc_queue sc_tasks]. rewrite !count_app, !count_one. lia. Qed.
Lemma lost_close k x c : lost k x c <= lost k x (OnClose c).
Proof.
  unfold OnClose. destruct (negb (sc_open c)); [lia|]. rewrite lost_note. cbn [is_served is_answer]. unfold lost. cbn [sc_log sc_queue sc_tasks closeResource with_chans with_sess].
  rewrite count_nil. pose proof (count_nonneg (is_queued k x) (sc_queue c)). lia.
Qed.
Lemma lost_eq k x c c' : sc_log c' = sc_log c -> sc_queue c' = sc_queue c -> sc_tasks c' = sc_tasks c -> lost k x c' = lost k x c.
Proof. unfold lost. intros -> -> ->. reflexivity. Qed.
Lemma lost_task pr o i c k x : zlen (o_id o) = 10 -> fine pr c ->
  lost k x c <= lost k x (on_task pr o i c) /\ (win_ok c -> able pr o c -> lost k x (on_task pr o i c) = lost k x c).
Proof.
  intros Hi H. destruct (nth_error (sc_tasks c) i) as [[j q]|] eqn:N; [|unfold on_task; rewrite N; split; [lia|auto]].
  assert (J : job_fine pr j) by (destruct H as (_ & HT & _); apply (HT (j, q)); eapply nth_error_In; eauto).
  assert (U : forall its q', lost k x (put c its (upd (sc_tasks c) i (j, q'))) = lost k x c - count (is_queued k x) its + (if is_pending k x (j, q) then 1 else 0) - (if is_pending k x (j, q') then 1 else 0)).
  { intros its q'. unfold lost, put. cbn [sc_log sc_queue sc_tasks]. rewrite count_app, (count_upd _ _ _ _ _ N). lia. }
  assert (V : forall its, lost k x (put c its (del (sc_tasks c) i)) = lost k x c - count (is_queued k x) its + (if is_pending k x (j, q) then 1 else 0)).
  { intros its. unfold lost, put. cbn [sc_log sc_queue sc_tasks]. rewrite count_app, (count_del _ _ _ _ N). lia. }
  assert (PE : forall ts, lost k x (with_tasks c ts) = lost k x (put c [] ts)) by (intros ts; unfold lost, put; cbn [with_tasks sc_log sc_queue sc_tasks]; rewrite app_nil_r; reflexivity).
  assert (SC : win_ok c -> se_conn (sc_sess c) = true) by (intros W; apply W).
  assert (NQ : forall it, item_of pr o j it -> (forall k r, j <> JFlow k r) -> (forall k r, j <> JSubmit k r) -> count (is_queued k x) [it] = 0).
  { intros it I1 N1 N2. rewrite count_one. destruct I1; try reflexivity; exfalso; [eapply N1|eapply N2]; reflexivity. }
  destruct (on_task_step pr o i c j q N) as [W F|Ej|it W I1 C1|g W Q|W Q S|W Q|k0 r it code a Ej Eq I1 C1 Ec Ek Ea|s' its w W Eq Nj SS It Wi|its a k0 Eq W It|g W Q|W Q].
  - rewrite PE, V, count_nil. split; [destruct (is_pending _ _ _); lia|]. intros WO AB.
    destruct (is_pending k x (j, q)) eqn:P; [|lia]. exfalso. destruct j; try discriminate W; try discriminate P.
    destruct J as [[ver D] Hb]. assert (R : 0 <= flow_code (pr_p pr) < 256) by (destruct (pr_p pr); cbn; lia).
    destruct (reply_ok pr ver k0 r _ o D Hb Hi R) as (b' & E & A). eapply F. cbn [plain_job]. unfold sendSubmitResponse. rewrite E. cbn [bind].
    unfold AsyncWrite. rewrite (SC WO). cbn [bind]. reflexivity.
  - rewrite PE, V, count_nil. subst j. cbn. split; [lia|]. intros. lia.
  - rewrite V. assert (X : count (is_queued k x) [it] = if is_pending k x (j, q) then 1 else 0).
    { rewrite count_one. destruct I1; try discriminate W; try reflexivity. unfold is_queued, is_pending. cbn [fst]. destruct x; reflexivity. }
    rewrite X. split; [|intros _ _]; lia.
  - unfold try_send. destruct (ch_closed (get_chan c g)) eqn:CC.
    + rewrite PE, V, count_nil. split; [destruct (is_pending _ _ _); lia|]. intros WO AB. exfalso.
      destruct (win_some _ _ _ _ N WO W) as [g' G]. destruct WO as (_ & WO). rewrite G in WO. destruct WO as (_ & W2 & _ & _ & _ & W6 & _).
      specialize (W6 _ (nth_error_In _ _ N) W). destruct Q as [[_ Q]| ->]; cbn in *; congruence.
    + assert (X : forall q', (q' = PWork \/ q' = PSend g) -> is_pending k x (j, q') = is_pending k x (j, q)).
      { intros q' Q'. destruct j; try discriminate W; cbn [is_pending]; try reflexivity. destruct Q' as [-> | ->]; destruct Q as [[-> _]| ->]; reflexivity. }
      destruct (_ <? _).
      * match goal with |- context [set_chan ?d ?g1 ?y] => change (lost k x (set_chan d g1 y)) with (lost k x d) end. rewrite PE, U, count_nil, (X PWork) by auto. destruct (is_pending _ _ _); split; intros; lia.
      * rewrite PE, U, count_nil, (X (PSend g)) by auto. destruct (is_pending _ _ _); split; intros; lia.
  - rewrite PE, U, count_nil. assert (X : is_pending k x (j, PStuck) = false) by (destruct j; try discriminate W; try reflexivity; cbn; apply andb_false_r). rewrite X.
    split; [destruct (is_pending k x (j, q)); lia|]. intros WO AB. exfalso. destruct (win_some _ _ _ _ N WO W) as [g' G]. congruence.
  - rewrite PE, U, count_nil. assert (X : is_pending k x (j, PRelease) = false) by (destruct j; try discriminate W; try reflexivity; cbn; apply andb_false_r). rewrite X.
    split; [destruct (is_pending k x (j, q)); lia|]. intros WO [AB1 AB2]. destruct Q as [[-> Q]|[a ->]].
    + destruct j; try discriminate W; cbn [is_pending]; try lia. exfalso. destruct (win_some _ _ _ _ N WO W) as [g' G].
      destruct (pr_find pr (o_gen o) (se_cid (sc_sess c))) as [acc|] eqn:FA; [|apply AB2; congruence].
      destruct J as [[ver D] Hb]. assert (R : 0 <= (if o_busy o then busy_code (pr_p pr) else 0) < 256) by (destruct (o_busy o), (pr_p pr); cbn; lia).
      destruct (reply_ok pr ver k0 r _ o D Hb Hi R) as (b' & E & A). eapply Q. cbn [work]. rewrite FA, AB1. cbn [negb]. unfold sendSubmitResponse. rewrite E. cbn [bind].
      unfold AsyncWrite. rewrite (SC WO). cbn [bind]. reflexivity.
    + replace (is_pending k x (j, PReport a)) with false by (destruct j; try discriminate W; try reflexivity; cbn; rewrite andb_false_r; reflexivity). lia.
  - subst j q. rewrite U. assert (X : count (is_queued k x) [it] = if is_pending k x (JSubmit k0 r, PWork) then 1 else 0).
    { rewrite count_one. destruct it as [[kd b] f]. cbn [fst] in Ek. subst kd. unfold is_queued, is_pending. cbn [fst]. rewrite andb_true_r. destruct x; reflexivity. }
    rewrite X. assert (Y : is_pending k x (JSubmit k0 r, if code =? 0 then PReport a else PRelease) = false) by (cbn; destruct (code =? 0); apply andb_false_r).
    rewrite Y. split; [|intros _ _]; lia.
  - match goal with |- context [lost k x (SConn ?a1 ?a2 ?a3 ?a4 ?a5 ?a6 ?a7 ?a8)] => change (lost k x (SConn a1 a2 a3 a4 a5 a6 a7 a8)) with (lost k x (put c its (upd (sc_tasks c) i (j, PRelease)))) end. rewrite U.
    assert (X : forall q', is_pending k x (j, q') = false).
    { intros q'. destruct j; try discriminate W; try reflexivity. exfalso. eapply Nj. reflexivity. }
    rewrite !X. assert (Y : count (is_queued k x) its = 0).
    { destruct It as [->|(it & -> & I1 & _)]; [reflexivity|]. apply NQ; [exact I1| |exact Nj]. intros k1 r1 E. subst j. discriminate W. }
    rewrite Y. split; [|intros _ _]; lia.
  - rewrite U. assert (Y : count (is_queued k x) its = 0) by (destruct It as [->|(b & -> & _)]; reflexivity). rewrite Y.
    assert (X : is_pending k x (j, PRelease) = false /\ is_pending k x (j, q) = false) by (subst q; destruct j; try discriminate W; split; try reflexivity; cbn; apply andb_false_r).
    destruct X as [-> ->]. split; [|intros _ _]; lia.
  - assert (X : is_pending k x (j, q) = false) by (destruct Q as [[-> _]| ->]; destruct j; try discriminate W; try reflexivity; cbn; apply andb_false_r).
    assert (D : lost k x (with_tasks c (del (sc_tasks c) i)) = lost k x c) by (rewrite PE, V, count_nil, X; lia).
    unfold try_recv. destruct (_ <? _); [match goal with |- context [set_chan ?d ?g1 ?y] => change (lost k x (set_chan d g1 y)) with (lost k x d) end; split; intros; lia|].
    destruct (ch_closed _); [split; intros; lia|]. rewrite PE, U, count_nil, X.
    replace (is_pending k x (j, PRecv g)) with false by (destruct j; try discriminate W; try reflexivity; cbn; rewrite andb_false_r; reflexivity). split; intros; lia.
  - split; [lia|auto].
Qed.
Lemma lost_step pr c e c' k x : is_submit (pr_p pr) k -> zlen (o_id (snd e)) = 10 -> fine pr c -> step pr c e = Ok c' ->
  lost k x c <= lost k x c' /\ (win_ok c -> able pr (snd e) c -> taken e -> sc_open c' = true -> lost k x c' = lost k x c).
Proof.
  intros HK Hi H E. destruct e as [[seg|i| | |] o]; cbn [step fst snd] in *.
  - apply on_recv_step in E. assert (CL : forall y, sc_open (OnClose y) = false) by (intros y; unfold OnClose; destruct (sc_open y) eqn:X; [reflexivity|exact X]).
    destruct E as [O1|O1 F|O1 F|k0 rest O1 F N|k0 rest h a c1 O1 F Hin Hc HA]; try (split; [reflexivity|intros; reflexivity]).
    + split; [exact (lost_close k x (with_buf c (sc_buf c ++ seg)))|]. intros _ _ _ X. rewrite CL in X. discriminate.
    + assert (G : lost k x c <= lost k x c1 /\ (o_acc o = true -> lost k x c1 = lost k x c)).
      { inversion HA; subst; rewrite ?lost_spawn, ?lost_note; cbn [is_served is_answer].
        - split; [|intros _]; lia.
        - cbn [is_pending]. split; [|intros _]; lia.
        - cbn [is_pending]. destruct (same_pk k k0), x; cbn; split; intros; lia.
        - split; [destruct (same_pk k k0 && Bool.eqb x true); lia|congruence].
        - cbn [is_pending]. destruct (same_pk k k0), x; cbn; split; intros; lia.
        - assert (NS : same_pk k k0 = false).
          { destruct (same_pk k k0) eqn:X; [|reflexivity]. exfalso. apply same_pk_iff in X. subst k0. unfold is_submit in HK. rewrite HK in Hc.
            destruct h; try congruence; destruct (pr_p pr); cbn in Hc; discriminate. }
          rewrite NS. cbn [andb]. assert (NP : is_pending k x (j, PStart) = false).
          { destruct j; try discriminate; try reflexivity. exfalso. match goal with NJ : forall k r, _ <> JSubmit k r |- _ => eapply NJ; reflexivity end. }
          rewrite NP. split; intros; lia. }
      destruct G as [G1 G2]. assert (GB : lost k x (with_buf c1 rest) = lost k x c1) by reflexivity.
      destruct a; cbn [closing].
      * rewrite GB. split; [exact G1|]. intros _ _ T _. apply G2. exact T.
      * pose proof (lost_close k x (with_buf c1 rest)). split; [lia|]. intros _ _ _ X. rewrite CL in X. discriminate.
  - injection E as <-. destruct (lost_task pr o i c k x Hi H) as [A B]. split; [exact A|]. intros; auto.
  - assert (X : lost k x c' = lost k x c); [|split; [lia|auto]].
    unfold on_write in E. destruct (sc_open c); [|injection E as <-; reflexivity].
    destruct (sc_queue c) as [|[[kd b] f] r] eqn:Q; [injection E as <-; reflexivity|].
    assert (X : lost k x (note (with_queue c r) (OOut kd b)) = lost k x c).
    { rewrite lost_note. unfold lost. cbn [with_queue sc_log sc_queue sc_tasks]. rewrite Q, count_cons. unfold is_queued at 2. cbn [fst is_served].
      replace (is_answer k x (OOut kd b)) with (match kd with KSubmit k' x' _ => same_pk k k' && Bool.eqb x x' | _ => false end) by (destruct kd; reflexivity). lia. }
    rewrite <- X. set (c1 := note _ _) in *. clearbody c1.
    destruct f; cbn [callback] in E; try (injection E as <-; reflexivity).
    + destruct ac as [ac|]; destruct (code =? 0); try discriminate; try (injection E as <-; reflexivity).
      apply bind_ok in E as (c2 & E2 & E). injection E as <-. unfold completeLogin in E2. destruct (_ <? 0) eqn:WN; [discriminate|]. injection E2 as <-.
      rewrite lost_note. cbn [is_served is_answer]. unfold lost. cbn [with_chans with_sess closeResource sc_log sc_queue sc_tasks]. lia.
    + destruct (code =? 0); injection E as <-; reflexivity.
  - injection E as <-. assert (X : lost k x (on_tick pr o c) = lost k x c); [|split; [lia|auto]].
    unfold on_tick. destruct (negb _); [reflexivity|]. destruct (_ || _); [destruct (o_acc o); [rewrite lost_spawn; cbn; lia|reflexivity]|].
    destruct (se_stat (sc_sess c)); try reflexivity. assert (H1 : lost k x (if o_acc o then spawn c JHeart else c) = lost k x c) by (destruct (o_acc o); [rewrite lost_spawn; cbn; lia|reflexivity]).
    destruct (o_dly o); [|exact H1]. destruct (o_acc2 o); [|exact H1]. rewrite lost_spawn. cbn [is_pending]. lia.
  - injection E as <-. split; [apply lost_close|]. intros _ _ _ X. unfold OnClose in X. destruct (sc_open c) eqn:Y; cbn [negb] in X; [discriminate|congruence].
Qed.

(** ** Whole runs *)
(** Reloads keep the accounts: one found under a name at some moment can be found under its own id
    at every later one (the store never drops an entry, C67; what the entry says may change). *)
Definition store_ok (pr : params) (es : list (event * orc)) : Prop := forall l1 e l2 e0 n a, es = l1 ++ e :: l2 -> In e0 l1 ->
  pr_find pr (o_gen (snd e0)) n = Some a -> pr_find pr (o_gen (snd e)) (ac_ClientId a) <> None.
Lemma gen_found pr k a : gen pr k a -> exists v n, pr_find pr v n = Some a.
Proof. unfold gen, genuine. intros (v & G). exists v. destruct (pr_p pr); destruct G as (_ & H & _); eauto. Qed.
Lemma gen_only_found pr es k a : gen (only pr es) k a -> exists e n, In e es /\ pr_find pr (o_gen (snd e)) n = Some a.
Proof. intros G. destruct (gen_only _ _ _ _ G) as (e & He & K). exists e. unfold genuine in K. destruct (pr_p pr); destruct K as (_ & H & _); eauto. Qed.
Lemma able_ok pr pre e post c : pr_delay_ok pr = true -> store_ok pr (pre ++ e :: post) -> auth (only pr pre) c -> win_ok c -> able pr (snd e) c.
Proof.
  intros D S (_ & G & _) (_ & W). split; [exact D|]. intros X. destruct (se_win (sc_sess c)) as [g|]; [|congruence].
  destruct W as (_ & _ & _ & _ & _ & _ & a & _ & _ & -> & k & Hk). apply in_split in Hk as (l1 & l2 & E).
  specialize (G _ _ _ E). destruct G as [_ G]. destruct (gen_only_found _ _ _ _ G) as (e0 & n & He & Hn). exact (S _ _ _ _ _ _ eq_refl He Hn).
Qed.
Lemma lost_run_le pr es k x : is_submit (pr_p pr) k -> forall c c', segs_ok es -> ids_ok es -> fine pr c -> run pr c es = Ok c' -> lost k x c <= lost k x c'.
Proof.
  intros HK. induction es as [|e es IH]; intros c c' S D F E; cbn [run] in E; [injection E as <-; lia|].
  apply bind_ok in E as (c1 & E1 & E2). destruct (lost_step pr c e c1 k x HK (Forall_inv D) F E1) as [A _].
  assert (F1 : fine pr c1) by (apply (fine_step pr c e c1); auto; [exact (Forall_inv S)|exact (Forall_inv D)]).
  specialize (IH c1 c' (Forall_inv_tail S) (Forall_inv_tail D) F1 E2). lia.
Qed.
Lemma auth_one pr c e c1 : segs_ok [e] -> auth pr c -> step pr c e = Ok c1 -> auth pr c1.
Proof. intros S A E. apply (auth_run pr [e] c c1); auto. cbn [run]. rewrite E. reflexivity. Qed.
Lemma app_run pr a b c c1 : run pr c a = Ok c1 -> run pr c (a ++ b) = run pr c1 b.
Proof. revert c. induction a as [|e a IH]; intros c E; cbn [run app] in *; [congruence|]. apply bind_ok in E as (c2 & E1 & E2). rewrite E1. cbn [bind]. auto. Qed.
Lemma lost_run_eq pr now es k x : is_submit (pr_p pr) k -> pr_delay_ok pr = true -> forall pre c c', segs_ok pre -> run pr (opened now) pre = Ok c -> store_ok pr (pre ++ es) ->
  segs_ok es -> ids_ok es -> Forall taken es ->
  fine pr c -> win_ok c -> calm pr c es -> run pr c es = Ok c' -> sc_open c' = true -> lost k x c' = lost k x c.
Proof.
  intros HK HD. induction es as [|e es IH]; intros pre c c' SP RP HS S D T F W C E O; cbn [run calm] in *; [congruence|].
  apply bind_ok in E as (c1 & E1 & E2). rewrite E1 in C. destruct C as [C1 C2].
  assert (O1 : sc_open c1 = true) by (apply (open_back_run pr es c1 c'); auto).
  destruct (lost_step pr c e c1 k x HK (Forall_inv D) F E1) as [_ B].
  assert (A : auth (only pr pre) c) by (apply (auth_run _ pre (opened now)); [exact SP|apply auth_opened|rewrite run_only; exact RP]).
  rewrite <- B; [|exact W|apply (able_ok pr pre e es); auto|exact (Forall_inv T)|exact O1].
  apply (IH (pre ++ [e]) c1 c'); auto; try (rewrite <- app_assoc; exact HS).
  - apply Forall_app. split; [exact SP|]. constructor; [exact (Forall_inv S)|constructor].
  - rewrite (app_run pr pre [e] _ c RP). cbn [run]. rewrite E1. reflexivity.
  - exact (Forall_inv_tail S).
  - exact (Forall_inv_tail D).
  - exact (Forall_inv_tail T).
  - apply (fine_step pr c e c1); auto; [exact (Forall_inv S)|exact (Forall_inv D)].
  - apply (win_step pr c e c1); auto.
Qed.

(** C51, everything that holds of every run whatever happens: each response written answers a
    submit that was accepted (or met the rate limit), at most once, with its sequence number,
    with the flow-control error exactly when the rate limit refused it; and the counter of
    submits is the number of responses with result 0 (as uint64). *)
Theorem C51_answers : forall pr now es c, segs_ok es -> ids_ok es -> run pr (opened now) es = Ok c ->
  (forall k x, is_submit (pr_p pr) k -> count (is_answer k x) (sc_log c) <= count (is_served k x) (sc_log c)) /\
  (forall k x code b, In (OOut (KSubmit k x code) b) (sc_log c) -> submit_answer (pr_p pr) k code b /\ result_ok (pr_p pr) x code) /\
  se_mt (sc_sess c) = count is_good (sc_log c) mod 2 ^ 64.
Proof.
  intros pr now es c S D R. assert (F : fine pr c) by (apply (fine_run pr es (opened now)); auto; apply fine_opened).
  split; [|split].
  - intros k x HK. pose proof (lost_run_le pr es k x HK _ _ S D (fine_opened pr now) R) as L. unfold lost in L. cbn [opened sc_log sc_queue sc_tasks] in L. rewrite !count_nil in L.
    pose proof (count_nonneg (is_queued k x) (sc_queue c)). pose proof (count_nonneg (is_pending k x) (sc_tasks c)). lia.
  - intros k x code b Hin. destruct F as (_ & _ & _ & F & _). exact (F _ Hin).
  - apply F.
Qed.
(** C51, no submit is forgotten: on an open connection every submit served so far is answered,
    or its response is queued, or a goroutine has it in hand - in calm runs (at most one login
    suffices, see [once_calm]) when the pool takes the goroutines. *)
Theorem C51_partial : forall pr now es c, segs_ok es -> ids_ok es -> Forall taken es -> pr_delay_ok pr = true -> store_ok pr es ->
  run pr (opened now) es = Ok c -> sc_open c = true -> calm pr (opened now) es ->
  forall k x, is_submit (pr_p pr) k ->
  count (is_served k x) (sc_log c) = count (is_answer k x) (sc_log c) + count (is_queued k x) (sc_queue c) + count (is_pending k x) (sc_tasks c).
Proof.
  intros pr now es c S D T DL ST R O C k x HK.
  pose proof (lost_run_eq pr now es k x HK DL [] _ _ (Forall_nil _) eq_refl ST S D T (fine_opened pr now) (win_opened now) C R O) as L.
  unfold lost in L. cbn [opened sc_log sc_queue sc_tasks] in L. rewrite !count_nil in L. lia.
Qed.

(** ** Nothing blocks: the work in hand can always be finished *)
Definition mu (t : task) : nat :=
  if is_win (fst t) then match snd t with PStart | PSend _ => 4 | PWork => 3 | PReport _ => 2 | PRelease | PRecv _ => 1 | PStuck => 0 end else 1.
Fixpoint total (l : list task) : nat := match l with [] => 0 | t :: r => mu t + total r end.
Lemma total_app l r : total (l ++ r) = (total l + total r)%nat.
Proof. induction l as [|t l IH]; [reflexivity|]. cbn [app total]. lia. Qed.
Lemma total_del l i t : nth_error l i = Some t -> (total (del l i) + mu t)%nat = total l.
Proof. intros H. rewrite (split_nth l i t H) at 2. unfold del. rewrite !total_app. cbn [total]. lia. Qed.
Lemma total_upd l i t y : nth_error l i = Some t -> (total (upd l i y) + mu t)%nat = (total l + mu y)%nat.
Proof. intros H. rewrite (split_nth l i t H) at 2. unfold upd. rewrite !total_app. cbn [total]. lia. Qed.
Lemma pick {A} (f : A -> bool) l : (exists i t, nth_error l i = Some t /\ f t = true) \/ (forall t, In t l -> f t = false).
Proof.
  induction l as [|a l [(i & t & H & F)|H]].
  - right. intros t [].
  - left. exists (S i), t. auto.
  - destruct (f a) eqn:E; [left; exists 0%nat, a; auto|]. right. intros t [<-|Ht]; auto.
Qed.
Lemma progress pr o c : win_ok c -> sc_tasks c <> [] -> (se_win (sc_sess c) <> None -> 1 <= window_size c) ->
  exists i, (total (sc_tasks (on_task pr o i c)) < total (sc_tasks c))%nat.
Proof.
  intros W NE WS. pose proof (win_slots pr c W) as SL.
  destruct (pick (fun t => negb (is_win (fst t))) (sc_tasks c)) as [(i & [j q] & N & F)|AW].
  { exists i. cbn [fst] in F. assert (P : is_win j = false) by (destruct (is_win j); [discriminate|reflexivity]).
    assert (E : sc_tasks (on_task pr o i c) = del (sc_tasks c) i).
    { destruct (on_task_step pr o i c j q N) as [W1 F1|Ej|it W1 I1 C1|g W1 Q|W1 Q S|W1 Q|k r it code a Ej Eq I1 C1 Ec Ek Ea|s' its w W1 Eq Nj SS It Wi|its a k Eq W1 It|g W1 Q|W1 Q];
        try reflexivity; try congruence. subst j. discriminate P. }
    rewrite E. pose proof (total_del _ _ _ N). unfold mu in H. cbn [fst] in H. rewrite P in H. lia. }
  assert (AW' : forall t, In t (sc_tasks c) -> is_win (fst t) = true) by (intros t Ht; specialize (AW t Ht); destruct (is_win (fst t)); [reflexivity|discriminate]).
  destruct (pick processing (sc_tasks c)) as [(i & [j q] & N & F)|NP].
  - exists i. assert (P : is_win j = true) by (apply (AW' (j, q)); eapply nth_error_In; eauto).
    specialize (SL o i j q N P). cbv zeta in SL. unfold processing in F. cbn [fst snd] in F. rewrite P in F. cbn [andb] in F.
    destruct q as [|g'| |a'| |g'|]; try discriminate F.
    + destruct SL as (q' & -> & Q). pose proof (total_upd _ _ _ (j, q') N) as T. unfold mu in T. cbn [fst snd] in T. rewrite P in T. destruct Q as [->|[a ->]]; lia.
    + rewrite SL. pose proof (total_upd _ _ _ (j, PRelease) N) as T. unfold mu in T. cbn [fst snd] in T. rewrite P in T. lia.
    + destruct SL as [-> _]. pose proof (total_del _ _ _ N) as T. unfold mu in T. cbn [fst snd] in T. rewrite P in T. lia.
    + destruct SL as [-> _]. pose proof (total_del _ _ _ N) as T. unfold mu in T. cbn [fst snd] in T. rewrite P in T. lia.
  - exists 0%nat. destruct (sc_tasks c) as [|[j q] ts] eqn:TS; [congruence|].
    assert (N : nth_error (sc_tasks c) 0 = Some (j, q)) by (rewrite TS; reflexivity). assert (P : is_win j = true) by (apply (AW' (j, q)); left; reflexivity).
    rewrite <- TS in *. specialize (SL o 0%nat j q N P). cbv zeta in SL. assert (F : processing (j, q) = false) by (apply NP; rewrite TS; left; reflexivity).
    unfold processing in F. cbn [fst snd] in F. rewrite P in F. cbn [andb] in F.
    assert (Z0 : count processing (sc_tasks c) = 0) by (apply count_zero; exact NP).
    assert (GO : sc_tasks (on_task pr o 0 c) = upd (sc_tasks c) 0 (j, PWork) -> (mu (j, q) = 4)%nat -> (total (sc_tasks (on_task pr o 0 c)) < total (sc_tasks c))%nat).
    { intros E M. rewrite E. pose proof (total_upd _ _ _ (j, PWork) N) as T. rewrite M in T. unfold mu in T. cbn [fst snd] in T. rewrite P in T. lia. }
    destruct (win_some c 0 j q N W P) as [g G]. assert (1 <= window_size c) by (apply WS; congruence).
    assert (M : match q with PStart | PSend _ => mu (j, q) = 4%nat | _ => True end) by (unfold mu; cbn [fst snd]; rewrite P; destruct q; auto).
    rewrite Z0 in SL. replace (0 <? window_size c) with true in SL by lia.
    destruct q; try discriminate F; try contradiction; apply GO; try apply SL; exact M.
Qed.
Lemma task_open pr o i c : sc_open (on_task pr o i c) = sc_open c.
Proof.
  destruct (nth_error (sc_tasks c) i) as [[j q]|] eqn:N; [|unfold on_task; rewrite N; auto].
  destruct (on_task_step pr o i c j q N); auto; unfold try_send, try_recv; repeat match goal with |- context [if ?b then _ else _] => destruct b end; auto.
Qed.
Definition worker (e : event * orc) : Prop := match fst e with ETask _ | EWrite => True | _ => False end.
Lemma worker_ok es : Forall worker es -> segs_ok es /\ Forall taken es.
Proof. intros H. unfold segs_ok, taken. split; (eapply Forall_impl; [|exact H]); intros [[]] X; cbn in *; tauto. Qed.
Lemma app_calm pr a b c c1 : run pr c a = Ok c1 -> calm pr c a -> calm pr c1 b -> calm pr c (a ++ b).
Proof.
  revert c. induction a as [|e a IH]; intros c E H K; cbn [run app calm] in *; [congruence|]. apply bind_ok in E as (c2 & E1 & E2). rewrite E1 in *. destruct H. split; auto.
Qed.
Lemma finish_tasks pr o : zlen (o_id o) = 10 -> forall n c, (total (sc_tasks c) <= n)%nat -> win_ok c -> (se_win (sc_sess c) <> None -> 1 <= window_size c) ->
  exists es c', Forall worker es /\ Forall (fun e => snd e = o) es /\ run pr c es = Ok c' /\ calm pr c es /\ sc_tasks c' = [] /\ sc_open c' = sc_open c /\ sc_log c' = sc_log c.
Proof.
  intros Hi. induction n as [|n IH]; intros c L W WS.
  - exists [], c. split; [constructor|]. split; [constructor|]. split; [reflexivity|]. split; [exact I|]. split; [|auto]. destruct (sc_tasks c) as [|t ts] eqn:E; [reflexivity|]. exfalso.
    destruct (progress pr o c W) as [i Hp]; [congruence|exact WS|]. rewrite E in Hp. lia.
  - destruct (sc_tasks c) as [|t ts] eqn:E.
    + exists [], c. split; [constructor|]. split; [constructor|]. split; [reflexivity|]. split; [exact I|auto].
    + destruct (progress pr o c W) as [i Hp]; [congruence|exact WS|]. rewrite <- E in L.
      assert (LG : sc_log (on_task pr o i c) = sc_log c) by apply task_log.
      destruct (IH (on_task pr o i c)) as (es & c' & A1 & A2 & A3 & A4 & A5 & A6 & A7).
      * lia.
      * apply win_task. exact W.
      * assert (W' := win_task pr o i c W). unfold window_size. rewrite LG. intros X. destruct (se_win (sc_sess c)) eqn:Q; [apply WS; discriminate|]. exfalso.
        destruct W' as (_ & W'). destruct (se_win (sc_sess (on_task pr o i c))); [|congruence]. destruct W' as (_ & _ & _ & _ & _ & _ & a & W' & _). rewrite LG in W'.
        destruct W as (_ & W). rewrite Q in W. destruct W as (_ & _ & _ & _ & W). congruence.
      * exists ((ETask i, o) :: es), c'. split; [constructor; [exact I|exact A1]|]. split; [constructor; auto|]. split; [exact A3|]. split.
        -- cbn [calm step]. split; [|exact A4]. rewrite LG. lia.
        -- split; [exact A5|]. split; [rewrite A6; apply task_open|]. congruence.
Qed.
Lemma finish_queue pr o : zlen (o_id o) = 10 -> (forall v n a, pr_find pr v n = Some a -> 0 <= ac_MtWindowSize a) -> forall q c, sc_queue c = q -> sc_tasks c = [] -> auth pr c -> sc_open c = true ->
  exists es c', Forall worker es /\ Forall (fun e => snd e = o) es /\ run pr c es = Ok c' /\ calm pr c es /\ sc_tasks c' = [] /\ sc_queue c' = [] /\ sc_open c' = true.
Proof.
  intros Hi HW. induction q as [|[[kd b] f] q IH]; intros c Q T A O.
  - exists [], c. split; [constructor|]. split; [constructor|]. split; [reflexivity|]. split; [exact I|auto].
  - assert (X : exists c1, on_write o c = Ok c1 /\ sc_queue c1 = q /\ sc_tasks c1 = [] /\ sc_open c1 = true).
    { unfold on_write. rewrite O, Q. destruct f; cbn [callback]; try (eexists; split; [reflexivity|cbn; auto]).
      - assert (IO : item_ok pr (sc_log c) (kd, b, CbLogin k code ac)) by (apply A; rewrite Q; left; reflexivity).
        destruct IO as [_ IO]. cbn [snd] in IO. destruct (code =? 0) eqn:Z0.
        + destruct (IO ltac:(lia)) as (a & -> & G & _). destruct (gen_found _ _ _ G) as (v & n & Hn). specialize (HW v n a Hn). unfold completeLogin. cbv zeta.
          destruct (ac_MtWindowSize a <? 0) eqn:L; [lia|]. cbn [bind]. eexists. split; [reflexivity|]. cbn. auto.
        + destruct ac; (eexists; split; [reflexivity|cbn; auto]).
      - destruct (code =? 0); cbn; auto. }
    destruct X as (c1 & E1 & Q1 & T1 & O1).
    destruct (IH c1 Q1 T1) as (es & c' & A1 & A2 & A3 & A4 & A5 & A6); [|exact O1|].
    { apply (auth_one pr c (EWrite, o) c1); [constructor; [exact I|constructor]|exact A|exact E1]. }
    exists ((EWrite, o) :: es), c'. split; [constructor; [exact I|exact A1]|]. split; [constructor; auto|]. cbn [run step calm]. rewrite E1. cbn [bind]. split; [exact A3|]. split; [|exact (conj A5 A6)].
    split; [|exact A4]. intros _ t Ht. rewrite T in Ht. destruct Ht.
Qed.

(** C51, and every submit can be answered: from every such state the goroutines and the event
    loop, without any new input, can finish their work, and then each submit has exactly one
    response. (Accounts have a window of at least one; [o] says among other things what the store
    holds by then.) *)
Theorem C51_finishes : forall pr now es c o, segs_ok es -> ids_ok es -> Forall taken es -> pr_delay_ok pr = true ->
  (forall es', Forall (fun e => snd e = o) es' -> store_ok pr (es ++ es')) -> (forall v n a, pr_find pr v n = Some a -> 1 <= ac_MtWindowSize a) -> zlen (o_id o) = 10 ->
  run pr (opened now) es = Ok c -> sc_open c = true -> calm pr (opened now) es ->
  exists es' c', Forall worker es' /\ run pr c es' = Ok c' /\ sc_open c' = true /\ sc_tasks c' = [] /\ sc_queue c' = [] /\
    forall k x, is_submit (pr_p pr) k -> count (is_answer k x) (sc_log c') = count (is_served k x) (sc_log c') /\
      count (is_served k x) (sc_log c) <= count (is_served k x) (sc_log c').
Proof.
  intros pr now es c o S D T DL ST HW Hi R O C.
  pose proof (win_run pr es _ _ (win_opened now) R O C) as W. pose proof (auth_run pr es _ _ S (auth_opened pr now) R) as A.
  destruct (finish_tasks pr o Hi _ c (Nat.le_refl _) W) as (e1 & c1 & A1 & A2 & A3 & A4 & A5 & A6 & A7).
  { intros NW. unfold window_size. destruct W as (_ & W). destruct (se_win (sc_sess c)) as [g|] eqn:Q.
    - destruct W as (_ & _ & _ & _ & _ & _ & a & -> & _ & _ & k & Hk). apply in_split in Hk as (l1 & l2 & E). destruct A as (_ & G & _).
      specialize (G _ _ _ E). destruct G as [_ G]. destruct (gen_found _ _ _ G) as (v & n & Hn). eauto.
    - congruence. }
  destruct (worker_ok _ A1) as [S1 T1].
  destruct (finish_queue pr o Hi (fun v n a H => Z.le_trans 0 1 _ ltac:(lia) (HW v n a H)) _ c1 eq_refl A5) as (e2 & c2 & B1 & B2 & B3 & B4 & B5 & B6 & B7).
  { apply (auth_run pr e1 c c1); auto. } { congruence. }
  destruct (worker_ok _ B1) as [S2 T2].
  assert (I1 : ids_ok e1) by (eapply Forall_impl; [|exact A2]; cbn; intros ? ->; exact Hi). assert (I2 : ids_ok e2) by (eapply Forall_impl; [|exact B2]; cbn; intros ? ->; exact Hi).
  exists (e1 ++ e2), c2. split; [apply Forall_app; auto|]. split; [rewrite (app_run pr e1 e2 c c1 A3); exact B3|]. split; [exact B7|]. split; [exact B5|]. split; [exact B6|].
  intros k x HK. split.
  - assert (Q : count (is_served k x) (sc_log c2) = count (is_answer k x) (sc_log c2) + count (is_queued k x) (sc_queue c2) + count (is_pending k x) (sc_tasks c2)).
    { apply (C51_partial pr now (es ++ e1 ++ e2)); auto.
      - apply Forall_app; split; [exact S|apply Forall_app; auto].
      - apply Forall_app; split; [exact D|apply Forall_app; auto].
      - apply Forall_app; split; [exact T|apply Forall_app; auto].
      - apply ST. apply Forall_app. auto.
      - rewrite (app_run pr es _ _ c R), (app_run pr e1 e2 c c1 A3). exact B3.
      - apply (app_calm pr es _ _ c R C). apply (app_calm pr e1 e2 c c1 A3 A4 B4). }
    rewrite B5, B6, !count_nil in Q. lia.
  - assert (G : grows c c2) by (apply (log_run pr (e1 ++ e2)); rewrite (app_run pr e1 e2 c c1 A3); exact B3). destruct G as [l ->]. rewrite count_app.
    pose proof (count_nonneg (is_served k x) l). lia.
Qed.

(** C51: a well-formed submit that arrives on a logged-in session is accepted for processing, or
    refused by the rate limiter, as the limiter says; the connection stays open. *)
Theorem C51_received : forall pr now es c seg o k rest r, run pr (opened now) es = Ok c -> calm pr (opened now) es -> sc_open c = true ->
  se_stat (sc_sess c) = StatLogin -> DecodeAndCheckHeader (pr_p pr) (pr_drain pr) (sc_buf c ++ seg) = Ok (FPass k rest) ->
  is_submit (pr_p pr) k -> decode_submit pr (se_ver (sc_sess c)) k = Ok r -> o_acc o = true ->
  exists c', step pr c (ERecv seg, o) = Ok c' /\ sc_open c' = true /\ sc_log c' = sc_log c ++ [OGot k; OServe k (negb (o_lim o))] /\
    count (is_pending k (negb (o_lim o))) (sc_tasks c') = count (is_pending k (negb (o_lim o))) (sc_tasks c) + 1.
Proof.
  intros pr now es c seg o k rest r R C O ST F HK D AC. pose proof (win_run pr es _ _ (win_opened now) R O C) as W.
  assert (RS : se_res (sc_sess c) = true).
  { destruct W as (_ & W). destruct (se_win (sc_sess c)); [apply W|]. destruct W as (_ & W & _). congruence. }
  cbn [step]. unfold on_recv. rewrite O. cbn [negb]. unfold OnTraffic. rewrite F. cbn [bind].
  set (c2 := spawn (note (note c (OGot k)) (OServe k (negb (o_lim o)))) (if negb (o_lim o) then JFlow k r else JSubmit k r)).
  assert (A : act pr o HSubmit k c = Ok (ANone, c2)).
  { unfold act. cbv zeta. change (sc_sess (note c (OGot k))) with (sc_sess c). unfold sessionCheck. rewrite ST. cbn [negb]. rewrite D, RS, AC. cbn [negb]. unfold c2. destruct (o_lim o); reflexivity. }
  assert (HC : handler_cmd (pr_p pr) HSubmit = pk_cmd k) by (unfold is_submit in HK; rewrite HK; destruct (pr_p pr); reflexivity).
  assert (HI : In HSubmit (handlers (pr_p pr))) by (destruct (pr_p pr); cbn; auto).
  assert (CH : forall hs, NoDup (map (handler_cmd (pr_p pr)) hs) -> In HSubmit hs -> ExecuteChain (pr_p pr) (act pr o) hs k c = Ok (ANone, c2)).
  { induction hs as [|h0 hs IH]; [intros _ []|]; intros ND [->|Hi].
    - cbn [ExecuteChain]. unfold handler. rewrite HC, Z.eqb_refl. cbn [negb]. rewrite A. reflexivity.
    - cbn [ExecuteChain]. unfold handler. cbn [map] in ND. inversion ND as [|? ? N1 N2]; subst.
      replace (handler_cmd (pr_p pr) h0 =? pk_cmd k) with false.
      2:{ symmetry. apply Z.eqb_neq. intros E. apply N1. rewrite E, <- HC. apply in_map. exact Hi. }
      cbn [negb bind]. apply IH; assumption. }
  rewrite CH; [|apply handlers_nodup|exact HI]. cbn [bind]. eexists. split; [reflexivity|]. split; [exact O|]. unfold c2. split.
  - cbn [with_buf spawn with_tasks note sc_log]. rewrite <- app_assoc. reflexivity.
  - cbn [with_buf spawn with_tasks note sc_tasks]. rewrite count_app, count_one. assert (K : same_pk k k = true) by (apply same_pk_iff; reflexivity).
    destruct (o_lim o); cbn; rewrite K; reflexivity.
Qed.

(** ** The demo server: one submit accepted, one refused by the limiter, one that meets the
    simulated failure *)
Definition submit_bytes : bytes := get [] (s <- submit_demo 48 [[49;51;56]; [49;51;57]] [72;101;108;108;111] ;; Submit_Encode s).
Definition submit_pk : packet := Packet 4 (unbe (firstn 4 (skipn 8 submit_bytes))) (skipn 12 submit_bytes).
Definition with_dice (lim busy : bool) : orc := Orc lim true true 5 busy true 1 2 3 (1, 2, 3) (repeat 0 10) (repeat 0 10) (repeat 48 10) (repeat 48 10) (repeat 48 10) 0 0 (fun _ => 1) None 0.
Definition es_submit : list (event * orc) := login_events ++
  [(ERecv submit_bytes, with_dice true false); (ERecv submit_bytes, with_dice false false); (ERecv submit_bytes, with_dice true false);
   (ETask 0, orc1); (ETask 0, orc1); (ETask 1, orc1); (EWrite, orc1)].
(** served, answered, queued, in hand *)
Definition books (x : bool) (r : res sconn) : option (Z * Z * Z * Z) :=
  match r with
  | Ok c => Some (count (is_served submit_pk x) (sc_log c), count (is_answer submit_pk x) (sc_log c), count (is_queued submit_pk x) (sc_queue c), count (is_pending submit_pk x) (sc_tasks c))
  | _ => None
  end.
Example C51_ex : books false (run pr_one (opened 0) es_submit) = Some (2, 1, 0, 1) /\ books true (run pr_one (opened 0) es_submit) = Some (1, 0, 1, 0)
  /\ calm pr_one (opened 0) es_submit.
Proof. split; [vm_compute; reflexivity|]. split; [vm_compute; reflexivity|]. apply calmb_ok. vm_compute. reflexivity. Qed.
Example C51_env_ex : ids_ok es_submit /\ Forall taken es_submit /\ store_ok pr_one es_submit /\ is_submit P_CMPP submit_pk.
Proof.
  split; [|split; [|split]].
  - unfold ids_ok, es_submit, login_events. cbn [map app]. repeat (apply Forall_cons; [vm_compute; reflexivity|]). apply Forall_nil.
  - unfold es_submit, login_events. cbn [map app]. repeat (apply Forall_cons; [first [exact I|vm_compute; reflexivity]|]). apply Forall_nil.
  - intros l1 e l2 e0 n a _ _ H. unfold pr_one in *. cbn [pr_find] in *. destruct (beqb n (ac_ClientId ac_one)); [|discriminate]. injection H as <-. vm_compute. discriminate.
  - reflexivity.
Qed.
(** C51, refuted: two submits are served, the first takes the only slot, the second waits; then
    the client logs in again. The waiting goroutine dies on the closed channel: its submit is
    never answered although the connection stays open. *)
Definition es_lost : list (event * orc) := login_events ++
  map (fun e => (e, orc1)) [ERecv submit_bytes; ERecv submit_bytes; ETask 0; ETask 1; ERecv login_demo; ETask 2; EWrite; ETask 1; ETask 0; ETask 0; EWrite; EWrite; ETask 0].
Theorem C51_refuted : exists c k, run pr_one (opened 0) es_lost = Ok c /\ sc_open c = true /\ is_submit P_CMPP k /\
  forall es' c', segs_ok es' -> ids_ok es' -> run pr_one c es' = Ok c' ->
  count (is_answer k false) (sc_log c') < count (is_served k false) (sc_log c').
Proof.
  destruct (run pr_one (opened 0) es_lost) as [c| |] eqn:E; [|vm_compute in E; discriminate|vm_compute in E; discriminate].
  exists c, submit_pk. split; [reflexivity|].
  assert (X : match run pr_one (opened 0) es_lost with Ok c => sc_open c && (lost submit_pk false c =? 1) | _ => false end = true) by (vm_compute; reflexivity).
  rewrite E in X. apply andb_prop in X as [X1 X2]. split; [exact X1|]. split; [reflexivity|]. intros es' c' S D R.
  assert (Y : forall seg, bytes_ok seg <-> forallb (fun b => (0 <=? b) && (b <? 256)) seg = true).
  { intros seg. unfold bytes_ok. rewrite forallb_forall, Forall_forall. unfold is_byte. split; intros K x Hx; specialize (K x Hx); lia. }
  assert (F : fine pr_one c).
  { apply (fine_run pr_one es_lost (opened 0)); [| |apply fine_opened|exact E].
    - unfold segs_ok, es_lost, login_events. cbn [map app]. repeat (apply Forall_cons; [cbn [fst]; first [exact I | apply Y; vm_compute; reflexivity]|]). apply Forall_nil.
    - unfold ids_ok, es_lost, login_events. cbn [map app]. repeat (apply Forall_cons; [vm_compute; reflexivity|]). apply Forall_nil. }
  pose proof (lost_run_le pr_one es' submit_pk false eq_refl c c' S D F R) as L. unfold lost in L at 2.
  pose proof (count_nonneg (is_queued submit_pk false) (sc_queue c')). pose proof (count_nonneg (is_pending submit_pk false) (sc_tasks c')). lia.
Qed.
Print Assumptions C51_answers.
Print Assumptions C51_partial.
Print Assumptions C51_finishes.
Print Assumptions C51_received.
Print Assumptions C51_refuted.

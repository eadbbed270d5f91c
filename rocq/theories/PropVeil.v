(** * PropVeil: what the server gives away of the clients' secrets.
    C108 (what a server writes and does depends on the secrets only through the digests of a login,
    or, for SGIP, through a password that was sent to it). *)
From Verif Require Import Base SpecWire WireProofs SpecText SeqModel UtilsModel UtilsProofs OptionsModel CmppModel CmppProofs CmppBuildProofs PropCmpp PropCmpp2 SgipModel SpecSgip SgipProofs PropSgip SmgpModel PropSmgp
  FrameModel SpecFrame PropFrame ClientModel RecvModel PropRecv ServerModel SpecServer ServerProofs PropServer PropWindow PropEnd PropTrust SubmitEndProofs.

(** ** Specification *)
(** Two stores of accounts that differ in the secrets only. *)
Definition same_store (f g : Z -> bytes -> option authconf) : Prop := forall v id,
  match f v id, g v id with Some a, Some b => same_but_secret a b | None, None => True | _, _ => False end.
(** Two servers that differ in the accounts' secrets and in the digest function only. *)
Definition same_server (pr pr' : params) : Prop :=
  pr_p pr = pr_p pr' /\ pr_drain pr = pr_drain pr' /\ pr_gbd pr = pr_gbd pr' /\ pr_delay_ok pr = pr_delay_ok pr' /\ pr_force pr = pr_force pr' /\
  same_store (pr_find pr) (pr_find pr').
(** The digests a login of the name [id] makes use of: the one the client proves itself with, for any
    time [ts], and the one the server proves itself with; SGIP has none. *)
Definition same_digests (p : proto) (m m' : bytes -> bytes) (id : bytes) (a b : authconf) : Prop :=
  match p with
  | P_SGIP => True
  | _ => (forall ts, m (ac_ClientId a ++ repeat 0 (match p with P_CMPP => 9 | _ => 7 end) ++ ac_SharedSecret a ++ ts)
                   = m' (ac_ClientId a ++ repeat 0 (match p with P_CMPP => 9 | _ => 7 end) ++ ac_SharedSecret b ++ ts)) /\
         (forall st, In st [[0]; [0; 0; 0; 0]] -> m (st ++ id ++ ac_SharedSecret a) = m' (st ++ id ++ ac_SharedSecret b))
  end.
Definition digests_alike (pr pr' : params) : Prop := forall v id a b, pr_find pr v id = Some a -> pr_find pr' v id = Some b ->
  same_digests (pr_p pr) (pr_md5 pr) (pr_md5 pr') id a b.
(** The password of a bind packet (octets 25 to 40 of the body) starts with neither secret: whoever
    sent it does not know them. *)
Definition unspoken (pr pr' : params) (log : list obs) : Prop := forall k, In (OGot k) log -> pk_cmd k = 1 ->
  forall v id a, pr_find pr v id = Some a \/ pr_find pr' v id = Some a -> forall z, firstn 16 (skipn 25 (pk_body k)) <> ac_SharedSecret a ++ z.
(** Observations and connections that differ in secrets only. *)
Definition same_obs (x y : obs) : Prop :=
  match x, y with OLogin k a, OLogin k' b => k = k' /\ same_but_secret a b | _, _ => x = y end.
Definition same_conn (c d : sconn) : Prop :=
  sc_buf c = sc_buf d /\ sc_open c = sc_open d /\ sc_sess c = sc_sess d /\ sc_chans c = sc_chans d /\ sc_tasks c = sc_tasks d /\
  sc_wish c = sc_wish d /\ map fst (sc_queue c) = map fst (sc_queue d) /\ Forall2 same_obs (sc_log c) (sc_log d).

(** ** Leaving the secrets out *)
Definition veil_cb (f : cb) : cb := match f with CbLogin k code ac => CbLogin k code (option_map hide_ac ac) | _ => f end.
Definition veil_item (it : okind * bytes * cb) : okind * bytes * cb := (fst it, veil_cb (snd it)).
Definition veil_obs (x : obs) : obs := match x with OLogin k a => OLogin k (hide_ac a) | _ => x end.
Definition veil (c : sconn) : sconn :=
  SConn (sc_buf c) (sc_open c) (sc_sess c) (sc_chans c) (sc_tasks c) (map veil_item (sc_queue c)) (sc_wish c) (map veil_obs (sc_log c)).
Lemma veil_veil c : veil (veil c) = veil c.
Proof.
  unfold veil. cbn [sc_buf sc_open sc_sess sc_chans sc_tasks sc_queue sc_wish sc_log]. rewrite !map_map. f_equal; apply map_ext.
  - intros [[kd b] f]. destruct f as [k code [a|]| | | | | | |]; reflexivity.
  - intros x. destruct x; reflexivity.
Qed.
Lemma veil_note c x : veil (note c x) = note (veil c) (veil_obs x).
Proof. unfold veil, note. cbn [sc_buf sc_open sc_sess sc_chans sc_tasks sc_queue sc_wish sc_log]. rewrite map_app. reflexivity. Qed.
Lemma veil_write c kd b f : AsyncWrite (veil c) kd b (veil_cb f) = rmap veil (AsyncWrite c kd b f).
Proof. unfold AsyncWrite, veil. cbn [sc_sess]. destruct (se_conn _); [|reflexivity]. cbn [rmap with_queue sc_buf sc_open sc_sess sc_chans sc_tasks sc_queue sc_wish sc_log]. rewrite map_app. reflexivity. Qed.
Lemma veil_resource c : closeResource (veil c) = veil (closeResource c).
Proof. unfold closeResource, veil, get_chan. cbn [sc_sess sc_chans]. destruct (se_win _); reflexivity. Qed.
Lemma veil_close c : OnClose (veil c) = veil (OnClose c).
Proof. unfold OnClose. cbn [veil sc_open]. destruct (negb _); [reflexivity|]. rewrite veil_resource, veil_note. reflexivity. Qed.
Lemma veil_spawn c j : spawn (veil c) j = veil (spawn c j).
Proof. reflexivity. Qed.
Lemma veil_act pr o h k c : act pr o h k (veil c) = rmap (fun x => (fst x, veil (snd x))) (act pr o h k c).
Proof.
  assert (N : forall d x, (forall q a, x <> OLogin q a) -> note (veil d) x = veil (note d x)) by (intros d x NX; rewrite veil_note; destruct x; try reflexivity; exfalso; eapply NX; reflexivity).
  unfold act. rewrite (N c) by discriminate. set (d := note c (OGot k)). cbv zeta. change (sc_sess (veil d)) with (sc_sess d).
  destruct h; try (destruct (negb (sessionCheck _)); [reflexivity|];
    first [destruct (decode_submit _ _ _) as [r| |]; [|reflexivity|reflexivity]; destruct (negb (se_res _)); [reflexivity|]; destruct (negb (o_lim o)); rewrite !(N d) by discriminate; destruct (o_acc o); reflexivity
          |destruct (decode_other _ _ _) as [j| |]; [|reflexivity|reflexivity]; destruct (negb (se_res _)); [reflexivity|]; rewrite (N d) by discriminate; destruct (o_acc o); reflexivity]).
  destruct (decode_login _ _) as [l| |]; [|reflexivity|reflexivity]. destruct (o_acc o); reflexivity.
Qed.
Lemma veil_chain pr o k hs : forall c, ExecuteChain (pr_p pr) (act pr o) hs k (veil c) = rmap (fun x => (fst x, veil (snd x))) (ExecuteChain (pr_p pr) (act pr o) hs k c).
Proof.
  induction hs as [|h hs IH]; intros c; [reflexivity|]. cbn [ExecuteChain]. unfold handler. destruct (negb _); [cbn [bind]; apply IH|].
  rewrite veil_act. destruct (act pr o h k c) as [[a d]| |]; reflexivity.
Qed.
Lemma veil_recv pr o seg c : on_recv pr o seg (veil c) = rmap veil (on_recv pr o seg c).
Proof.
  unfold on_recv. cbn [veil sc_open sc_buf]. destruct (negb _); [reflexivity|]. change (SConn _ _ _ _ _ _ _ _) with (veil c). unfold OnTraffic.
  destruct (DecodeAndCheckHeader _ _ _) as [[| |k rest]| |]; try reflexivity.
  - cbn [bind rmap]. f_equal. apply (veil_close (with_buf c _)).
  - cbn [bind]. rewrite veil_chain. destruct (ExecuteChain _ _ _ _ _) as [[[|] d]| |]; cbn [rmap bind fst snd]; try reflexivity.
    f_equal. apply (veil_close (with_buf d rest)).
Qed.
Lemma veil_tick pr o c : on_tick pr o (veil c) = veil (on_tick pr o c).
Proof. unfold on_tick. cbn [veil sc_open sc_sess]. destruct (negb _); [reflexivity|]. cbv zeta. destruct (_ || _); destruct (o_acc o); try reflexivity; destruct (se_stat _); try reflexivity; destruct (o_dly o); try reflexivity; destruct (o_acc2 o); reflexivity. Qed.
Lemma veil_callback o f c : callback o (veil_cb f) (veil c) = rmap veil (callback o f c).
Proof.
  destruct f as [k code [a|]|code| | | | | |]; cbn [veil_cb option_map callback]; cbv zeta; try reflexivity.
  - destruct (code =? 0); [|reflexivity]. unfold completeLogin. rewrite veil_resource. change (ac_MtWindowSize (hide_ac a)) with (ac_MtWindowSize a). destruct (_ <? 0); [reflexivity|].
    cbn [bind rmap]. rewrite veil_note. reflexivity.
  - destruct (code =? 0); reflexivity.
  - destruct (code =? 0); reflexivity.
Qed.
Lemma veil_on_write o c : on_write o (veil c) = rmap veil (on_write o c).
Proof.
  unfold on_write. cbn [veil sc_open sc_queue]. destruct (sc_open c); [|reflexivity]. destruct (sc_queue c) as [|[[kd b] f] r] eqn:Q; [cbn [map rmap]; unfold veil; rewrite Q; reflexivity|].
  cbn [map veil_item fst snd]. rewrite <- veil_callback, veil_note. reflexivity.
Qed.
Lemma veil_tasks c ts : with_tasks (veil c) ts = veil (with_tasks c ts).
Proof. reflexivity. Qed.
(** A goroutine other than a login's leaves the accounts in the queue alone. *)
Lemma veil_plain pr o j c : rmap veil (match plain_job pr o j (veil c) with Some r => r | None => Panic end) = rmap veil (match plain_job pr o j c with Some r => r | None => Panic end)
  /\ (plain_job pr o j (veil c) = None <-> plain_job pr o j c = None).
Proof.
  assert (W : forall kd b f, rmap veil (AsyncWrite (veil c) kd b f) = rmap veil (AsyncWrite c kd b f)).
  { intros kd b f. unfold AsyncWrite. change (sc_sess (veil c)) with (sc_sess c). destruct (se_conn _); [|reflexivity]. cbn [rmap]. f_equal. unfold with_queue, veil. cbn [sc_buf sc_open sc_sess sc_chans sc_tasks sc_queue sc_wish sc_log].
    pose proof (veil_veil c) as V. unfold veil in V. cbn [sc_buf sc_open sc_sess sc_chans sc_tasks sc_queue sc_wish sc_log] in V. injection V as V1 V2. rewrite V2, !map_app, V1. reflexivity. }
  destruct j; cbn [plain_job]; (split; [|split; intros X; first [discriminate X|reflexivity]]); try reflexivity.
  - unfold handle_login. destruct (login_check _ _ _) as [z l1]. destruct (login_answer _ _ _); [|reflexivity|reflexivity]. cbn [bind]. apply W.
  - unfold sendSubmitResponse. destruct (encode_reply _); [|reflexivity|reflexivity]. cbn [bind]. specialize (W (KSubmit k true (flow_code (pr_p pr))) a (CbSubmit (flow_code (pr_p pr)))).
    destruct (AsyncWrite (veil c) _ _ _), (AsyncWrite c _ _ _); cbn [rmap bind] in *; congruence.
  - destruct (force_packet _ _); [|reflexivity|reflexivity]. cbn [bind]. apply W.
  - change (sc_sess (veil c)) with (sc_sess c). destruct (_ <? _); [|cbn [rmap]; rewrite veil_veil; reflexivity]. destruct (heart_packet _ _) as [[b| |]|]; cbn [bind]; try reflexivity; [apply W|cbn [rmap]; rewrite veil_veil; reflexivity].
  - apply W.
Qed.
Definition veil_fst {A} (x : sconn * A) : sconn * A := (veil (fst x), snd x).
Lemma veil_work pr o j c : work pr o j (veil c) = rmap veil_fst (work pr o j c).
Proof.
  destruct j; cbn [work]; try reflexivity; change (sc_sess (veil c)) with (sc_sess c).
  - destruct (pr_find _ _ _); [|reflexivity]. destruct (negb _); [reflexivity|]. cbv zeta. unfold sendSubmitResponse. destruct (encode_reply _); [|reflexivity|reflexivity]. cbn [bind].
    match goal with |- context [AsyncWrite (veil c) ?x ?y (CbSubmit ?z)] => change (AsyncWrite (veil c) x y (CbSubmit z)) with (AsyncWrite (veil c) x y (veil_cb (CbSubmit z))) end.
    rewrite veil_write. destruct (AsyncWrite c _ _ _); reflexivity.
  - destruct (active_answer _ _) as [x| |]; [|reflexivity|reflexivity]. cbn [bind]. change CbActive with (veil_cb CbActive) at 1. rewrite veil_write. destruct (AsyncWrite c _ _ _); reflexivity.
  - destruct (term_answer _ _) as [x| |]; [|reflexivity|reflexivity]. cbn [bind]. change CbTerm with (veil_cb CbTerm) at 1. rewrite veil_write. destruct (AsyncWrite c _ _ _); reflexivity.
  - destruct (se_conn _); reflexivity.
Qed.
Lemma veil_report pr o j a c : report pr o j a (veil c) = rmap veil (report pr o j a c).
Proof.
  destruct j; cbn [report]; try reflexivity. change (sc_sess (veil c)) with (sc_sess c). destruct (report_bytes _ _ _ _ _) as [[b|]| |]; try reflexivity. cbn [bind].
  apply (veil_write c (KReport k) b CbReport).
Qed.
Lemma veil_send c i j g : try_send (veil c) i j g = veil (try_send c i j g).
Proof. unfold try_send, get_chan. cbn [veil sc_chans sc_tasks]. destruct (ch_closed _); [reflexivity|]. destruct (_ <? _); reflexivity. Qed.
Lemma veil_take c i j g : try_recv (veil c) i j g = veil (try_recv c i j g).
Proof. unfold try_recv, get_chan. cbn [veil sc_chans sc_tasks]. destruct (_ <? _); [reflexivity|]. destruct (ch_closed _); reflexivity. Qed.
Lemma veil_eq_tasks c d : veil c = veil d -> sc_tasks c = sc_tasks d.
Proof. intros H. apply (f_equal sc_tasks) in H. exact H. Qed.
Lemma veil_eq_with c d ts : veil c = veil d -> veil (with_tasks c ts) = veil (with_tasks d ts).
Proof. intros H. change (with_tasks (veil c) ts = with_tasks (veil d) ts). rewrite H. reflexivity. Qed.
Lemma veil_task pr o i c : veil (on_task pr o i (veil c)) = veil (on_task pr o i c).
Proof.
  unfold on_task. change (sc_tasks (veil c)) with (sc_tasks c). change (sc_sess (veil c)) with (sc_sess c). destruct (nth_error (sc_tasks c) i) as [[j q]|]; [|apply veil_veil].
  destruct (veil_plain pr o j c) as [P N]. assert (V : forall ts, veil (with_tasks (veil c) ts) = veil (with_tasks c ts)) by (intros ts; apply (veil_veil (with_tasks c ts))).
  destruct (plain_job pr o j (veil c)) as [r|] eqn:E1, (plain_job pr o j c) as [r'|] eqn:E2.
  - destruct r as [d| |], r' as [d'| |]; cbn [rmap] in P; try discriminate P; try apply V. assert (P' : veil d = veil d') by congruence.
    rewrite (veil_eq_tasks _ _ P'). apply veil_eq_with. exact P'.
  - exfalso. apply proj2 in N. specialize (N eq_refl). discriminate N.
  - exfalso. apply proj1 in N. specialize (N eq_refl). discriminate N.
  - destruct q.
    + destruct (se_win _); [rewrite veil_send; apply veil_veil|apply V].
    + rewrite veil_send. apply veil_veil.
    + rewrite veil_work. destruct (work pr o j c) as [[d q1]| |]; cbn [rmap veil_fst fst snd]; [|apply V|apply V]. apply (veil_veil (with_tasks d (upd (sc_tasks d) i (j, q1)))).
    + rewrite veil_report. destruct (report pr o j a c) as [d| |]; cbn [rmap]; [|apply V|apply V]. apply (veil_veil (with_tasks d (upd (sc_tasks d) i (j, PRelease)))).
    + destruct (se_win _); [rewrite veil_take; apply veil_veil|apply V].
    + rewrite veil_take. apply veil_veil.
    + apply veil_veil.
Qed.
Lemma veil_step pr c e : rmap veil (step pr (veil c) e) = rmap veil (step pr c e).
Proof.
  assert (R2 : forall x : res sconn, rmap veil (rmap veil x) = rmap veil x) by (intros [d| |]; cbn [rmap]; rewrite ?veil_veil; reflexivity).
  destruct e as [[seg|i| | |] o]; cbn [step].
  - rewrite veil_recv. apply R2.
  - cbn [rmap]. rewrite veil_task. reflexivity.
  - rewrite veil_on_write. apply R2.
  - cbn [rmap]. rewrite veil_tick, veil_veil. reflexivity.
  - cbn [rmap]. rewrite veil_close, veil_veil. reflexivity.
Qed.

(** ** Two servers *)
Section Two.
Variables pr pr' : params.
Hypothesis SS : same_server pr pr'.
Hypothesis DA : digests_alike pr pr'.
Lemma same_found v id : option_map hide_ac (pr_find pr v id) = option_map hide_ac (pr_find pr' v id).
Proof. destruct SS as (_ & _ & _ & _ & _ & F). specialize (F v id). destruct (pr_find pr v id), (pr_find pr' v id); try contradiction; [|reflexivity]. cbn [option_map]. f_equal. apply same_hide. exact F. Qed.
(** A password that neither store has. *)
Definition unknown_pwd (l : lreq) : Prop := match l with
  | LSgip b => forall v a, pr_find pr v (bd_name b) = Some a \/ pr_find pr' v (bd_name b) = Some a -> bd_pwd b <> ac_SharedSecret a
  | _ => True end.
Definition of_kind (p : proto) (l : lreq) : Prop := match p, l with P_CMPP, LCmpp _ | P_SGIP, LSgip _ | P_SMGP, LSmgp _ => True | _, _ => False end.
Lemma same_check v l : of_kind (pr_p pr) l -> unknown_pwd l ->
  fst (login_check (pr_md5 pr) l (pr_find pr v (login_key l))) = fst (login_check (pr_md5 pr') l (pr_find pr' v (login_key l))) /\
  forall code, (fst (login_check (pr_md5 pr) l (pr_find pr v (login_key l))) <> 0 -> code = fst (login_check (pr_md5 pr) l (pr_find pr v (login_key l)))) ->
    login_answer (pr_md5 pr) (snd (login_check (pr_md5 pr) l (pr_find pr v (login_key l)))) code
    = login_answer (pr_md5 pr') (snd (login_check (pr_md5 pr') l (pr_find pr' v (login_key l)))) code.
Proof.
  intros K UP. destruct SS as (_ & _ & _ & _ & _ & F). pose proof (F v (login_key l)) as F1. pose proof (DA v (login_key l)) as D1.
  destruct (pr_find pr v (login_key l)) as [a|] eqn:FA, (pr_find pr' v (login_key l)) as [b|] eqn:FB; try contradiction.
  - specialize (D1 a b eq_refl eq_refl). destruct F1 as (_ & EC & EL & EV & _). unfold same_digests in D1.
    destruct l as [c|c|c]; cbn [login_check of_kind] in *; destruct (pr_p pr); try contradiction.
    + destruct D1 as [D1 D2]. unfold Connect_Check. rewrite <- EV, <- EC. destruct (negb _).
      { split; [reflexivity|]. cbn [fst snd]. intros code X. rewrite X by lia. reflexivity. }
      replace (pr_md5 pr' (ac_ClientId a ++ zeros 9 ++ ac_SharedSecret b ++ TimeStamp2Str (cn_timestamp c))) with (pr_md5 pr (ac_ClientId a ++ zeros 9 ++ ac_SharedSecret a ++ TimeStamp2Str (cn_timestamp c))) by apply D1.
      destruct (beqb _ _); cbn [fst snd]; (split; [reflexivity|]); intros code X; [clear X|rewrite X by lia; reflexivity].
      cbn [login_answer]. unfold Connect_ToResponse. cbn [cn_version cn_h cn_sourceAddr cn_secret]. cbv zeta. destruct (u8 code =? 0) eqn:U8; [|reflexivity]. apply Z.eqb_eq in U8. rewrite U8.
      cbn [login_key] in D2. rewrite D2; [reflexivity|]. destruct (is_v3 _); [right; left; reflexivity|left; reflexivity].
    + cbn [login_key] in *. pose proof (UP v a (or_introl FA)) as N1. pose proof (UP v b (or_intror FB)) as N2. unfold Bind_Check. rewrite <- EL.
      assert (B1 : beqb (ac_SharedSecret a) (bd_pwd c) = false) by (destruct (beqb (ac_SharedSecret a) (bd_pwd c)) eqn:B; [apply beqb_iff in B; congruence|reflexivity]).
      assert (B2 : beqb (ac_SharedSecret b) (bd_pwd c) = false) by (destruct (beqb (ac_SharedSecret b) (bd_pwd c)) eqn:B; [apply beqb_iff in B; congruence|reflexivity]).
      rewrite B1, B2. split; [reflexivity|]. reflexivity.
    + destruct D1 as [D1 D2]. unfold Login_Check. rewrite <- EV, <- EC. destruct (negb _).
      { split; [reflexivity|]. cbn [fst snd]. intros code X. rewrite X by lia. reflexivity. }
      replace (pr_md5 pr' (ac_ClientId a ++ zeros 7 ++ ac_SharedSecret b ++ TimeStamp2Str (lg_timestamp c))) with (pr_md5 pr (ac_ClientId a ++ zeros 7 ++ ac_SharedSecret a ++ TimeStamp2Str (lg_timestamp c))) by apply D1.
      destruct (beqb _ _); cbn [fst snd]; (split; [reflexivity|]); intros code X; [clear X|rewrite X by lia; reflexivity].
      cbn [login_answer]. unfold Login_ToResponse. cbn [lg_version lg_h lg_clientID lg_secret]. destruct (code =? 0) eqn:U8; [|reflexivity]. apply Z.eqb_eq in U8. rewrite U8.
      cbn [login_key] in D2. change (u8 0) with 0. rewrite D2; [reflexivity|]. left. reflexivity.
  - destruct l as [c|c|c]; cbn [login_check]; (split; [reflexivity|]); intros code X; try reflexivity; cbn [Connect_Check Login_Check fst snd] in *; rewrite X by lia; reflexivity.
Qed.
Lemma same_login o k l c : of_kind (pr_p pr) l -> unknown_pwd l -> rmap veil (handle_login pr o k l c) = rmap veil (handle_login pr' o k l c).
Proof.
  intros K UP. unfold handle_login. destruct (same_check (o_gen o) l K UP) as [E1 E2]. cbv zeta. pose proof (same_found (o_gen o) (login_key l)) as SF. destruct SS as (EP & _ & _ & _ & _ & F). specialize (F (o_gen o) (login_key l)).
  rewrite <- EP. destruct (login_check (pr_md5 pr) l (pr_find pr (o_gen o) (login_key l))) as [z l1], (login_check (pr_md5 pr') l (pr_find pr' (o_gen o) (login_key l))) as [z' l1']. cbn [fst snd] in *. subst z'.
  set (code := if z =? 0 then match pr_find pr (o_gen o) (login_key l) with Some ac => if ac_MaxConns ac <=? o_cnt o (ac_ClientId ac) then over_code (pr_p pr) else z | None => z end else z).
  replace (if z =? 0 then match pr_find pr' (o_gen o) (login_key l) with Some ac => if ac_MaxConns ac <=? o_cnt o (ac_ClientId ac) then over_code (pr_p pr) else z | None => z end else z) with code.
  2:{ unfold code. destruct (z =? 0); [|reflexivity]. destruct (pr_find pr (o_gen o) (login_key l)) as [a|], (pr_find pr' (o_gen o) (login_key l)) as [b|]; try contradiction; [|reflexivity].
      destruct F as (_ & EC & _ & _ & _ & _ & _ & _ & _ & _ & _ & _ & _ & _ & _ & _ & EM & _). rewrite EC, EM. reflexivity. }
  rewrite <- E2 by (intros NZ; unfold code; replace (z =? 0) with false by lia; reflexivity). clear E2. destruct (login_answer _ l1 code); [|reflexivity|reflexivity]. cbn [bind].
  unfold AsyncWrite. destruct (se_conn _); [|reflexivity]. cbn [rmap]. f_equal. unfold veil, with_queue. cbn [sc_buf sc_open sc_sess sc_chans sc_tasks sc_queue sc_wish sc_log]. rewrite !map_app. cbn [map]. unfold veil_item at 2 4. cbn [veil_cb fst snd]. rewrite SF. reflexivity.
Qed.
Lemma same_work o j c : work pr o j c = work pr' o j c.
Proof.
  destruct SS as (EP & _ & _ & ED & _ & F). destruct j; cbn [work]; rewrite <- ?EP, <- ?ED; try reflexivity. specialize (F (o_gen o) (se_cid (sc_sess c))).
  destruct (pr_find pr _ _), (pr_find pr' _ _); try contradiction; reflexivity.
Qed.
Lemma same_report o j a c : report pr o j a c = report pr' o j a c.
Proof.
  destruct SS as (_ & _ & _ & _ & _ & F). destruct j; cbn [report]; try reflexivity. specialize (F (o_gen o) (se_cid (sc_sess c))).
  replace (report_bytes pr' r a o (se_cid (sc_sess c))) with (report_bytes pr r a o (se_cid (sc_sess c))); [reflexivity|]. destruct r, a; try reflexivity. cbn [report_bytes].
  destruct (o_norep o); [reflexivity|]. destruct (pr_find pr _ _) as [x|], (pr_find pr' _ _) as [y|]; try contradiction; [|reflexivity]. destruct F as (_ & _ & _ & EV & _).
  unfold smgp_NewDeliveryReport. rewrite EV. reflexivity.
Qed.
Definition fair_task (t : task) : Prop := match fst t with JLogin _ l => of_kind (pr_p pr) l /\ unknown_pwd l | _ => True end.
Lemma same_task o i c : (forall t, In t (sc_tasks c) -> fair_task t) -> veil (on_task pr o i c) = veil (on_task pr' o i c).
Proof.
  intros FT. unfold on_task. destruct (nth_error (sc_tasks c) i) as [[j q]|] eqn:N; [|reflexivity]. apply nth_error_In, FT in N.
  assert (P : rmap veil (match plain_job pr o j c with Some r => r | None => Panic end) = rmap veil (match plain_job pr' o j c with Some r => r | None => Panic end) /\ (plain_job pr o j c = None <-> plain_job pr' o j c = None)).
  { destruct j; cbn [plain_job]; (split; [|split; intros X; first [discriminate X|reflexivity]]); try reflexivity.
    - destruct N as [N1 N2]. apply same_login; assumption.
    - destruct SS as (<- & _). reflexivity.
    - destruct SS as (<- & _). reflexivity.
    - destruct SS as (<- & _). reflexivity. }
  destruct P as [P PN]. destruct (plain_job pr o j c) as [r|], (plain_job pr' o j c) as [r'|].
  - destruct r as [d| |], r' as [d'| |]; cbn [rmap] in P; try discriminate P; try reflexivity. assert (P' : veil d = veil d') by congruence.
    rewrite (veil_eq_tasks _ _ P'). apply veil_eq_with. exact P'.
  - exfalso. apply proj2 in PN. specialize (PN eq_refl). discriminate PN.
  - exfalso. apply proj1 in PN. specialize (PN eq_refl). discriminate PN.
  - rewrite same_work. destruct q; try reflexivity. rewrite same_report. reflexivity.
Qed.
Lemma same_step c e : (forall t, In t (sc_tasks c) -> fair_task t) -> rmap veil (step pr c e) = rmap veil (step pr' c e).
Proof.
  intros FT. destruct e as [[seg|i| | |] o]; cbn [step]; try reflexivity.
  - f_equal. clear FT DA. destruct pr as [p d m g f dl fo], pr' as [p' d' m' g' f' dl' fo']. destruct SS as (E1 & E2 & E3 & E4 & E5 & _). cbn [pr_p pr_drain pr_gbd pr_delay_ok pr_force] in *. subst. reflexivity.
  - cbn [rmap]. f_equal. apply same_task. exact FT.
  - cbn [rmap]. f_equal. unfold on_tick. destruct SS as (_ & _ & _ & _ & <- & _). reflexivity.
Qed.
End Two.
Lemma veil_same c d : veil c = veil d -> same_conn c d.
Proof.
  assert (HA : forall a b, hide_ac a = hide_ac b -> same_but_secret a b).
  { intros a b M. destruct a, b. unfold hide_ac in M. cbn in M. unfold same_but_secret. cbn. injection M. intros. subst. repeat split. }
  intros H. destruct c as [b1 o1 s1 h1 t1 q1 w1 l1], d as [b2 o2 s2 h2 t2 q2 w2 l2]. unfold veil in H. cbn [sc_buf sc_open sc_sess sc_chans sc_tasks sc_queue sc_wish sc_log] in H.
  assert (X : forall a b c d e f g h a' b' c' d' e' f' g' h', SConn a b c d e f g h = SConn a' b' c' d' e' f' g' h' -> a = a' /\ b = b' /\ c = c' /\ d = d' /\ e = e' /\ f = f' /\ g = g' /\ h = h') by (intros; repeat split; congruence).
  apply X in H as (-> & -> & -> & -> & -> & HQ & -> & HL). unfold same_conn. cbn [sc_buf sc_open sc_sess sc_chans sc_tasks sc_queue sc_wish sc_log]. do 6 (split; [reflexivity|]). split.
  - clear HL. revert q2 HQ. induction q1 as [|x q1 IH]; intros [|y q2] HQ; cbn [map] in *; try discriminate HQ; [reflexivity|]. f_equal; [|apply IH; congruence].
    assert (E : veil_item x = veil_item y) by congruence. apply (f_equal fst) in E. exact E.
  - clear HQ. revert l2 HL. induction l1 as [|x l1 IH]; intros [|y l2] HL; cbn [map] in *; try discriminate HL; constructor; [|apply IH; congruence].
    assert (E : veil_obs x = veil_obs y) by congruence. destruct x, y; cbn [veil_obs same_obs] in *; try discriminate E; try exact E. split; [congruence|]. apply HA. congruence.
Qed.
Lemma veil_got c d k : veil c = veil d -> In (OGot k) (sc_log d) -> In (OGot k) (sc_log c).
Proof.
  intros H I1. apply (f_equal sc_log) in H. cbn [veil sc_log] in H. assert (I2 : In (OGot k) (map veil_obs (sc_log c))) by (rewrite H; apply (in_map veil_obs) in I1; exact I1).
  apply in_map_iff in I2 as (x & E & I2). destruct x; cbn [veil_obs] in E; try discriminate E; congruence.
Qed.
Lemma run_log pr es : forall c c', run pr c es = Ok c' -> exists l, sc_log c' = sc_log c ++ l.
Proof.
  induction es as [|e es IH]; intros c c' E; cbn [run] in E; [injection E as <-; exists []; rewrite app_nil_r; reflexivity|]. apply bind_ok in E as (c1 & E1 & E2).
  destruct (step_got pr c e c1 E1) as (l & L & _). destruct (IH _ _ E2) as (l' & L'). exists (l ++ l'). rewrite L', L, app_assoc. reflexivity.
Qed.
Lemma login_of_kind p k l : decode_login p k = Ok l -> of_kind p l.
Proof. unfold decode_login. destruct p; intros E; apply bind_ok in E as (x & _ & E); injection E as <-; exact Logic.I. Qed.
Lemma bind_unspoken k b : decode_login P_SGIP k = Ok (LSgip b) -> exists z, firstn 16 (skipn 25 (pk_body k)) = bd_pwd b ++ z.
Proof.
  unfold decode_login. intros E. apply bind_ok in E as (x & E & EX). assert (x = b) by congruence. subst x. unfold Bind_Decode in E.
  apply bind_ok in E as (? & _ & E). apply bind_ok in E as (? & _ & E). apply bind_ok in E as (? & _ & E). apply bind_ok in E as (? & _ & E). apply bind_ok in E as (w & S1 & E). injection E as <-. cbn [bd_pwd].
  assert (S2 : w = firstn (Z.to_nat (41 - 25)) (skipn (Z.to_nat 25) (pk_body k))) by (unfold slice in S1; destruct (_ && _); congruence).
  change (Z.to_nat (41 - 25)) with 16%nat in S2. change (Z.to_nat 25) with 25%nat in S2. rewrite <- S2.
  destruct (TrimStr_prefix w) as [X|(z & X)]; [exists []; rewrite X, app_nil_r; reflexivity|exists (0 :: z); exact X].
Qed.
Lemma fair_tasks pr pr' c : auth pr c -> (pr_p pr = P_SGIP -> unspoken pr pr' (sc_log c)) -> forall t, In t (sc_tasks c) -> fair_task pr pr' t.
Proof.
  intros (_ & _ & T & _) UN t I1. apply T in I1. unfold fair_task. destruct (fst t) as [k x| | | | | | | | | |]; try exact Logic.I. cbn [job_ok] in I1. destruct I1 as (G & C1 & _ & D). split; [exact (login_of_kind _ _ _ D)|].
  destruct x as [y|y|y]; cbn [unknown_pwd]; try exact Logic.I. destruct (pr_p pr) eqn:EP; [exfalso; exact (login_of_kind _ _ _ D)| |exfalso; exact (login_of_kind _ _ _ D)].
  intros v a FA EQ. destruct (bind_unspoken _ _ D) as (z & B). apply (UN eq_refl k G C1 v _ a FA z). rewrite B, EQ. reflexivity.
Qed.
Lemma alike pr pr' es : same_server pr pr' -> digests_alike pr pr' -> segs_ok es -> forall c d c', auth pr c -> veil c = veil d -> run pr c es = Ok c' -> (pr_p pr = P_SGIP -> unspoken pr pr' (sc_log c')) ->
  exists d', run pr' d es = Ok d' /\ veil c' = veil d'.
Proof.
  intros SS DA. induction es as [|e es IH]; intros Hs c d c' A V E UN; cbn [run] in E.
  - injection E as <-. exists d. split; [reflexivity|exact V].
  - apply bind_ok in E as (c1 & E1 & E2). inversion Hs as [|? ? Hs1 Hs2]; subst.
    assert (G : forall k, In (OGot k) (sc_log c) -> In (OGot k) (sc_log c')).
    { intros k I1. destruct (run_log pr (e :: es) c c') as (l & L); [cbn [run]; rewrite E1; exact E2|]. rewrite L. apply in_or_app. left. exact I1. }
    assert (FT : forall t, In t (sc_tasks d) -> fair_task pr pr' t).
    { rewrite <- (veil_eq_tasks _ _ V). apply fair_tasks; [exact A|]. intros EP k I1. apply (UN EP k (G k I1)). }
    assert (X : rmap veil (step pr c e) = rmap veil (step pr' d e)) by (rewrite <- (veil_step pr c), V, (veil_step pr d); apply same_step; assumption).
    rewrite E1 in X. cbn [rmap] in X. destruct (step pr' d e) as [d1| |] eqn:F1; cbn [rmap] in X; try discriminate X. assert (V1 : veil c1 = veil d1) by congruence.
    assert (A1 : auth pr c1) by (apply (auth_step pr c e c1); [constructor; [exact Hs1|constructor]|exact A|exact E1]).
    destruct (IH Hs2 c1 d1 c' A1 V1 E2 UN) as (d' & F2 & V2). exists d'. split; [|exact V2]. cbn [run]. rewrite F1. exact F2.
Qed.

(** ** C108 *)
(** Two servers whose accounts differ in the secrets only and whose digests agree, to which the same
    happens, write the same packets, hold the same sessions, goroutines and windows and close alike. *)
Theorem C108_alike : forall pr pr' now es c, same_server pr pr' -> digests_alike pr pr' -> segs_ok es -> run pr (opened now) es = Ok c -> (pr_p pr = P_SGIP -> unspoken pr pr' (sc_log c)) ->
  exists d, run pr' (opened now) es = Ok d /\ same_conn c d /\ written (sc_log c) = written (sc_log d).
Proof.
  intros pr pr' now es c SS DA Hs E UN. destruct (alike pr pr' es SS DA Hs (opened now) (opened now) c (auth_opened pr now) eq_refl E UN) as (d & F & V).
  exists d. split; [exact F|]. pose proof (veil_same c d V) as SC. split; [exact SC|]. destruct SC as (_ & _ & _ & _ & _ & _ & _ & L). clear - L.
  induction L as [|x y l l' H L IH]; [reflexivity|]. unfold written in *. cbn [flat_map]. rewrite IH. f_equal. destruct x, y; cbn [same_obs] in H; try discriminate H; try reflexivity. congruence.
Qed.
Lemma same_back pr pr' : same_server pr pr' -> digests_alike pr pr' -> same_server pr' pr /\ digests_alike pr' pr.
Proof.
  intros (E1 & E2 & E3 & E4 & E5 & F) DA. split.
  - repeat split; auto. intros v id. specialize (F v id). destruct (pr_find pr v id), (pr_find pr' v id); try contradiction; [|exact Logic.I]. unfold same_but_secret in *. repeat match goal with H : _ /\ _ |- _ => destruct H end. repeat split; auto.
  - intros v id a b FA FB. specialize (DA v id b a FB FA). specialize (F v id). rewrite FA, FB in F. destruct F as (_ & EC & _). rewrite <- E1. unfold same_digests in *. destruct (pr_p pr); [|exact Logic.I|]; destruct DA as [D1 D2]; (split; intros; symmetry; [rewrite <- EC; apply D1|apply D2; assumption]).
Qed.
(** A CMPP or SMGP server also panics for all secrets or for none. *)
Theorem C108_ends_alike : forall pr pr' now es, same_server pr pr' -> digests_alike pr pr' -> segs_ok es -> pr_p pr <> P_SGIP ->
  ((exists c, run pr (opened now) es = Ok c) <-> (exists d, run pr' (opened now) es = Ok d)).
Proof.
  intros pr pr' now es SS DA Hs NP. destruct (same_back pr pr' SS DA) as [SS' DA']. split; intros (c & E).
  - destruct (C108_alike pr pr' now es c SS DA Hs E) as (d & F & _); [congruence|]. exists d. exact F.
  - assert (EP : pr_p pr = pr_p pr') by apply SS. destruct (C108_alike pr' pr now es c SS' DA' Hs E) as (d & F & _); [congruence|]. exists d. exact F.
Qed.
Print Assumptions C108_alike.
Print Assumptions C108_ends_alike.

(** ** Cases *)
(** A digest that adds up the octets; two secrets with the same octets have the same digests. *)
Definition sum_md5 (w : bytes) : bytes := repeat (fold_right Z.add 0 w mod 256) 16.
Definition veil_pr (p : proto) (secret : bytes) : params :=
  Params p true sum_md5 (fun b => Some b) (fun _ n => if beqb n (end_id p) then Some (end_acc (end_id p) secret) else None) true 1000000000000.
Definition veil_login (p : proto) (secret : bytes) : bytes := match login_packet sum_md5 p (end_acc (end_id p) secret) 7 (1, 2, 3) tr_ts 1116000000 with Ok b => b | _ => [] end.
(** a login in two segments, its answer, and a request to end *)
Definition veil_es (p : proto) (secret : bytes) : list (event * orc) :=
  let b := veil_login p secret in
  [(ERecv (firstn 20 b), end_orc 0); (ERecv (skipn 20 b), end_orc 0); (ETask 0, end_orc 0); (EWrite, end_orc 0);
   (ERecv (match p with P_CMPP => [0;0;0;12;0;0;0;2;0;0;0;9] | P_SGIP => [0;0;0;20;0;0;0;2;0;0;0;9;0;0;0;8;0;0;0;7] | P_SMGP => [0;0;0;12;0;0;0;6;0;0;0;9] end), end_orc 0); (ETask 0, end_orc 0); (ETask 0, end_orc 0); (EWrite, end_orc 0)].
Lemma veil_pr_alike p s s' : fold_right Z.add 0 s = fold_right Z.add 0 s' -> same_server (veil_pr p s) (veil_pr p s') /\ digests_alike (veil_pr p s) (veil_pr p s').
Proof.
  intros ES. assert (FA : forall x y, fold_right Z.add 0 (x ++ y) = fold_right Z.add 0 x + fold_right Z.add 0 y) by (induction x as [|z x IH]; intros y; cbn [app fold_right]; [reflexivity|rewrite IH; lia]). split.
  - repeat split. intros v id. cbn [veil_pr pr_find]. destruct (beqb _ _); [repeat split|exact Logic.I].
  - intros v id a b E1 E2. cbn [veil_pr pr_find pr_p pr_md5] in *. destruct (beqb _ _); [|discriminate E1]. injection E1 as <-. injection E2 as <-. cbn [end_acc ac_ClientId ac_SharedSecret].
    assert (SM : forall w w', fold_right Z.add 0 w = fold_right Z.add 0 w' -> sum_md5 w = sum_md5 w') by (intros w w' H; unfold sum_md5; rewrite H; reflexivity).
    unfold same_digests. destruct p; [|exact Logic.I|]; (split; intros; apply SM; rewrite !FA; change (ac_SharedSecret (end_acc (end_id _) s)) with s; change (ac_SharedSecret (end_acc (end_id _) s')) with s'; rewrite ES; reflexivity).
Qed.
(** The secrets 12 and 21: a CMPP or SMGP client that logs in with the one is let in with the same
    packets by the server that has the other; a guess is refused by all alike. *)
Example C108_case : forall p, same_server (veil_pr p [49;50]) (veil_pr p [50;49]) /\ digests_alike (veil_pr p [49;50]) (veil_pr p [50;49]) /\
  (p <> P_SGIP -> exists c d, segs_ok (veil_es p [49;50]) /\ run (veil_pr p [49;50]) (opened 0) (veil_es p [49;50]) = Ok c /\ run (veil_pr p [50;49]) (opened 0) (veil_es p [49;50]) = Ok d /\
     se_stat (sc_sess c) = StatLogin /\ sc_wish c = true /\ length (written (sc_log c)) = 2%nat /\ written (sc_log c) = written (sc_log d) /\ sc_log c <> sc_log d) /\
  (exists c, run (veil_pr p [49;50]) (opened 0) (firstn 4 (veil_es p [51])) = Ok c /\ se_stat (sc_sess c) = StatClosing /\ unspoken (veil_pr p [49;50]) (veil_pr p [50;49]) (sc_log c) /\ length (written (sc_log c)) = 1%nat).
Proof.
  assert (Y : forall seg, forallb (fun b => (0 <=? b) && (b <? 256)) seg = true -> bytes_ok seg).
  { intros seg. unfold bytes_ok. rewrite forallb_forall, Forall_forall. unfold is_byte. intros K x Hx. specialize (K x Hx). lia. }
  intros p. destruct (veil_pr_alike p [49;50] [50;49]) as [SS DA]; [reflexivity|]. split; [exact SS|]. split; [exact DA|]. clear SS DA. split.
  - intros NP. destruct (run (veil_pr p [49;50]) (opened 0) (veil_es p [49;50])) as [c| |] eqn:E1; [|destruct p; vm_compute in E1; discriminate E1|destruct p; vm_compute in E1; discriminate E1].
    destruct (run (veil_pr p [50;49]) (opened 0) (veil_es p [49;50])) as [d| |] eqn:E2; [|destruct p; vm_compute in E2; discriminate E2|destruct p; vm_compute in E2; discriminate E2].
    exists c, d. split; [destruct p; [|congruence|]; (repeat (apply Forall_cons; [cbn [fst]; try exact Logic.I; apply Y; vm_compute; reflexivity|]); apply Forall_nil)|]. split; [reflexivity|]. split; [reflexivity|].
    destruct p; [|congruence|]; vm_compute in E1, E2; injection E1 as <-; injection E2 as <-; repeat split; try reflexivity; intros X; discriminate X.
  - destruct (run (veil_pr p [49;50]) (opened 0) (firstn 4 (veil_es p [51]))) as [c| |] eqn:E1; [|destruct p; vm_compute in E1; discriminate E1|destruct p; vm_compute in E1; discriminate E1].
    exists c. split; [reflexivity|]. destruct p; vm_compute in E1; injection E1 as <-; (split; [reflexivity|]); (split; [|reflexivity]);
      intros k I1 _ v id a FA z; cbn [veil_pr pr_find] in FA; (assert (SA : ac_SharedSecret a = [49;50] \/ ac_SharedSecret a = [50;49]) by (destruct (beqb id _), FA as [FA|FA]; try discriminate FA; injection FA as <-; [left|right]; reflexivity));
      (repeat (destruct I1 as [I1|I1]; [try discriminate I1; injection I1 as <-|])); try (destruct I1; fail); destruct SA as [-> | ->]; cbn; discriminate.
Qed.

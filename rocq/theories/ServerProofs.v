(** * ServerProofs: invariants of the connection machine. *)
From Verif Require Import Base UtilsModel OptionsModel TlvModel SpecText SpecWire WireProofs CmppModel CmppBuildProofs PropCmpp
  SgipModel SmgpModel PropSmgp FrameModel SpecServer ServerModel.

(** ** Cutting bytes *)
Lemma slice_val {A} (f : list A) lo hi s : slice f lo hi = Ok s -> s = firstn (Z.to_nat (hi - lo)) (skipn (Z.to_nat lo) f).
Proof. unfold slice. destruct (_ && _); [|discriminate]. intros H. congruence. Qed.
Lemma at_val f i x : at_ f i = Ok x -> x = nth (Z.to_nat i) f 0.
Proof.
  unfold at_. destruct (_ && _); [|discriminate]. destruct (nth_error f (Z.to_nat i)) eqn:E; [|discriminate].
  intros H. injection H as <-. symmetry. apply nth_error_nth. exact E.
Qed.
Lemma get_be_val n f lo hi v : get_be n f lo hi = Ok v -> hi - lo = Z.of_nat n -> v = unbe (firstn n (skipn (Z.to_nat lo) f)).
Proof.
  unfold get_be. intros H E. apply bind_ok in H as (s & Hs & H). cbv beta in H. destruct (_ <=? _); [|discriminate].
  apply slice_val in Hs. rewrite Hs, E, Nat2Z.id, firstn_firstn, Nat.min_id in H. congruence.
Qed.
Lemma get_be_u32 f lo hi v : bytes_ok f -> get_be 4 f lo hi = Ok v -> hi - lo = 4 -> 0 <= v < 2 ^ 32.
Proof.
  intros Hf H E. pose proof (get_be_val 4 f lo hi v H E) as ->.
  set (x := firstn 4 _). assert (B : bytes_ok x) by (apply bytes_ok_firstn, bytes_ok_skipn, Hf).
  pose proof (unbe_range x B). assert (length x <= 4)%nat by (unfold x; apply firstn_le_length).
  change (2 ^ 32) with (256 ^ 4). split; [lia|]. eapply Z.lt_le_trans; [apply H0|]. apply Z.pow_le_mono_r; [reflexivity|unfold zlen in *; unfold bytes in *; lia].
Qed.

Lemma beqb_iff a b : beqb a b = true <-> a = b.
Proof. unfold beqb. destruct (list_eq_dec Z.eq_dec a b); split; congruence. Qed.

(** ** A login passes the check exactly if it is genuine *)
Lemma login_genuine p md5 find k l : pk_cmd k = 1 -> bytes_ok (pk_body k) -> decode_login p k = Ok l ->
  (fst (login_check md5 l (find (login_key l))) = 0 <-> exists a, find (login_key l) = Some a /\ genuine p md5 find k a).
Proof.
  intros Hc Hb D. unfold genuine. destruct p; cbn [decode_login] in D; apply bind_ok in D as (x & D & E); injection E as <-; cbn [login_check login_key].
  - unfold Connect_Decode in D. inv_bind D. injection D as <-. cbn [cn_sourceAddr].
    match goal with H : slice _ 0 6 = Ok _ |- _ => apply slice_val in H; change (Z.to_nat (6 - 0)) with 6%nat in H; change (skipn (Z.to_nat 0) (pk_body k)) with (pk_body k) in H; subst end.
    match goal with H : slice _ 6 22 = Ok _ |- _ => apply slice_val in H; change (Z.to_nat (22 - 6)) with 16%nat in H; change (Z.to_nat 6) with 6%nat in H end.
    match goal with H : at_ _ 22 = Ok _ |- _ => apply at_val in H; change (Z.to_nat 22) with 22%nat in H end.
    match goal with H : get_be _ _ 23 27 = Ok _ |- _ => pose proof (get_be_u32 _ _ _ _ Hb H eq_refl) as Ht; apply get_be_val in H; [|reflexivity]; change (Z.to_nat 23) with 23%nat in H end.
    match goal with |- context [Connect_Check md5 ?c ?o] => set (c0 := c); set (o0 := o); destruct (Connect_Check md5 c0 o0) as [code c'] eqn:Ec end.
    assert (Ht' : 0 <= cn_timestamp c0 < 2 ^ 32) by exact Ht.
    destruct (C30_check md5 c0 o0 Ht' code c' Ec) as [HC _]. cbn [fst]. rewrite HC.
    unfold c0. cbn [cn_version cn_timestamp cn_auth]. subst. split.
    + intros (a & ts & H1 & H2 & H3 & H4). exists a. split; [exact H1|]. split; [exact Hc|]. split; [exact H1|]. split; [exact H2|]. exists ts. auto.
    + intros (a & H1 & _ & _ & H2 & ts & H3 & H4). exists a, ts. auto.
  - unfold Bind_Decode in D. inv_bind D. injection D as <-. cbn [bd_name bd_pwd].
    match goal with H : slice _ 9 25 = Ok _ |- _ => apply slice_val in H; change (Z.to_nat (25 - 9)) with 16%nat in H; change (Z.to_nat 9) with 9%nat in H; subst end.
    match goal with H : slice _ 25 41 = Ok _ |- _ => apply slice_val in H; change (Z.to_nat (41 - 25)) with 16%nat in H; change (Z.to_nat 25) with 25%nat in H; subst end.
    cbn [fst]. unfold Bind_Check. cbn [bd_name bd_pwd].
    set (n := TrimStr _). set (w := TrimStr _). destruct (find n) as [a|].
    + destruct (beqb (ac_LoginName a) n && beqb (ac_SharedSecret a) w) eqn:B.
      * apply andb_true_iff in B as [B1 B2]. rewrite !beqb_iff in *. split; [intros _|reflexivity]. exists a. auto.
      * split; [discriminate|]. intros (a' & EE & _ & _ & B1 & B2). injection EE as <-. exfalso.
        rewrite andb_false_iff in B. destruct B as [B|B].
        -- rewrite B1 in B. rewrite (proj2 (beqb_iff n n) eq_refl) in B. discriminate.
        -- rewrite B2 in B. rewrite (proj2 (beqb_iff w w) eq_refl) in B. discriminate.
    + split; [discriminate|]. intros (a' & EE & _). discriminate.
  - unfold Login_Decode in D. inv_bind D. injection D as <-. cbn [lg_clientID].
    match goal with H : slice _ 0 8 = Ok _ |- _ => apply slice_val in H; change (Z.to_nat (8 - 0)) with 8%nat in H; change (skipn (Z.to_nat 0) (pk_body k)) with (pk_body k) in H; subst end.
    match goal with H : slice _ 8 24 = Ok _ |- _ => apply slice_val in H; change (Z.to_nat (24 - 8)) with 16%nat in H; change (Z.to_nat 8) with 8%nat in H end.
    match goal with H : at_ _ 29 = Ok _ |- _ => apply at_val in H; change (Z.to_nat 29) with 29%nat in H end.
    match goal with H : get_be _ _ 25 29 = Ok _ |- _ => pose proof (get_be_u32 _ _ _ _ Hb H eq_refl) as Ht; apply get_be_val in H; [|reflexivity]; change (Z.to_nat 25) with 25%nat in H end.
    match goal with |- context [Login_Check md5 ?c ?o] => set (c0 := c); set (o0 := o); destruct (Login_Check md5 c0 o0) as [code c'] eqn:Ec end.
    assert (Ht' : 0 <= lg_timestamp c0 < 2 ^ 32) by exact Ht.
    destruct (C42_check md5 c0 o0 Ht' code c' Ec) as [HC _]. cbn [fst]. rewrite HC.
    unfold c0. cbn [lg_version lg_timestamp lg_auth]. subst. split.
    + intros (a & ts & H1 & H2 & H3 & H4). exists a. split; [exact H1|]. split; [exact Hc|]. split; [exact H1|]. split; [exact H2|]. exists ts. auto.
    + intros (a & H1 & _ & _ & H2 & ts & H3 & H4). exists a, ts. auto.
Qed.

(** ** Lists *)
Lemma count_app {A} (f : A -> bool) l r : count f (l ++ r) = count f l + count f r.
Proof. unfold count. rewrite filter_app, app_length. lia. Qed.
Lemma count_nil {A} (f : A -> bool) : count f [] = 0. Proof. reflexivity. Qed.
Lemma count_one {A} (f : A -> bool) x : count f [x] = if f x then 1 else 0.
Proof. unfold count. cbn [filter]. destruct (f x); reflexivity. Qed.
Lemma count_cons {A} (f : A -> bool) x l : count f (x :: l) = (if f x then 1 else 0) + count f l.
Proof. change (x :: l) with ([x] ++ l). rewrite count_app, count_one. reflexivity. Qed.
Lemma count_nonneg {A} (f : A -> bool) l : 0 <= count f l.
Proof. unfold count. lia. Qed.
Lemma split_nth {A} (l : list A) i x : nth_error l i = Some x -> l = firstn i l ++ [x] ++ skipn (S i) l.
Proof. revert i. induction l as [|a l IH]; intros [|i] H; try discriminate; cbn in *; [congruence|]. f_equal. auto. Qed.
Lemma count_upd {A} (f : A -> bool) l i x y : nth_error l i = Some x ->
  count f (upd l i y) = count f l - (if f x then 1 else 0) + (if f y then 1 else 0).
Proof. intros H. rewrite (split_nth l i x H) at 2. unfold upd. rewrite !count_app, !count_one. lia. Qed.
Lemma count_del {A} (f : A -> bool) l i x : nth_error l i = Some x ->
  count f (del l i) = count f l - (if f x then 1 else 0).
Proof. intros H. rewrite (split_nth l i x H) at 2. unfold del. rewrite !count_app, !count_one. lia. Qed.
Lemma in_upd {A} (l : list A) i x y z : nth_error l i = Some x -> In z (upd l i y) -> z = y \/ In z l.
Proof.
  intros H Hz. rewrite (split_nth l i x H). unfold upd in Hz. rewrite !in_app_iff in *. cbn [In] in *. intuition.
Qed.
Lemma in_del {A} (l : list A) i z : In z (del l i) -> In z l.
Proof.
  unfold del. rewrite in_app_iff. intros [H|H]; rewrite <- (firstn_skipn i l); [apply in_or_app; auto|].
  apply in_or_app. right. revert H. generalize l. induction i as [|i IH]; intros [|a t] H; cbn in *; auto.
Qed.
Lemma count_zero {A} (f : A -> bool) l : count f l = 0 <-> forall x, In x l -> f x = false.
Proof.
  induction l as [|a l IH]; [split; [intros _ x []|reflexivity]|]. rewrite count_cons. pose proof (count_nonneg f l). split.
  - intros H0 x [<-|Hx]; destruct (f a) eqn:E; try lia; auto; apply IH; auto; lia.
  - intros H0. rewrite (H0 a (or_introl eq_refl)). cbn. apply IH. intros x Hx. apply H0. right. exact Hx.
Qed.
Lemma count_le {A} (f g : A -> bool) l : (forall x, f x = true -> g x = true) -> count f l <= count g l.
Proof.
  intros H. induction l as [|a l IH]; [reflexivity|]. rewrite !count_cons. pose proof (H a) as Ha. destruct (f a), (g a); try lia;
  specialize (Ha eq_refl); discriminate.
Qed.
Lemma nth_upd_same {A} (l : list A) i x y d : nth_error l i = Some x -> nth i (upd l i y) d = y.
Proof. revert i. induction l as [|a l IH]; intros [|i] H; try discriminate; cbn in *; auto; apply IH; exact H. Qed.
Lemma nth_upd_other {A} (l : list A) i j y d : i <> j -> (i < length l)%nat -> nth j (upd l i y) d = nth j l d.
Proof.
  revert i j. induction l as [|a l IH]; intros [|i] [|j] H L; cbn in *; try lia; auto; apply IH; lia.
Qed.
Lemma length_upd {A} (l : list A) i y : (i < length l)%nat -> length (upd l i y) = length l.
Proof. intros H. unfold upd. rewrite !app_length, firstn_length, skipn_length. cbn [length]. lia. Qed.

(** ** The chain of handlers *)
Lemma chain_cases {S} p (act : hkind -> packet -> S -> res (action * S)) hs k s a s' :
  ExecuteChain p act hs k s = Ok (a, s') ->
  (a = ANone /\ s' = s /\ forall h, In h hs -> handler_cmd p h <> pk_cmd k) \/
  exists h, In h hs /\ handler_cmd p h = pk_cmd k /\ act h k s = Ok (a, s').
Proof.
  revert s. induction hs as [|h hs IH]; intros s H; cbn [ExecuteChain] in H.
  - injection H as <- <-. left. auto.
  - unfold handler in H. destruct (handler_cmd p h =? pk_cmd k) eqn:E; cbn [negb] in H.
    + apply Z.eqb_eq in E. apply bind_ok in H as ([[nx a0] s0] & H1 & H2). apply bind_ok in H1 as ([a1 s1] & H1 & H3).
      injection H3 as <- <- <-. cbv beta iota in H2. injection H2 as <- <-. right. exists h. split; [left; reflexivity|]. auto.
    + cbn [bind] in H. destruct (IH s H) as [(A & B & C)|(h' & A & B)].
      * left. split; [exact A|]. split; [exact B|]. intros h' [<-|Hh]; [lia|auto].
      * right. exists h'. split; [right; exact A|exact B].
Qed.

(** ** What a step does *)
Definition is_win (j : job) : bool :=
  match j with JSubmit _ _ | JActive _ _ | JActiveResp _ | JDeliverResp _ | JTerm _ _ | JTermResp _ => true | _ => false end.
Definition item := (okind * bytes * cb)%type.
(** The writes a goroutine may queue *)
Inductive item_of (pr : params) (o : orc) : job -> item -> Prop :=
| I_login k l code0 l1 code b :
    login_check (pr_md5 pr) l (pr_find pr (o_gen o) (login_key l)) = (code0, l1) ->
    (code = 0 -> code0 = 0) ->
    (forall a, pr_find pr (o_gen o) (login_key l) = Some a -> code = 0 -> o_cnt o (ac_ClientId a) < ac_MaxConns a) ->
    (forall a, pr_find pr (o_gen o) (login_key l) = Some a -> code0 = 0 -> ac_MaxConns a <= o_cnt o (ac_ClientId a) -> code = over_code (pr_p pr)) ->
    (code0 <> 0 -> code = code0) ->
    login_answer (pr_md5 pr) l1 code = Ok b ->
    item_of pr o (JLogin k l) (KLogin k code, b, CbLogin k code (pr_find pr (o_gen o) (login_key l)))
| I_flow k r b : encode_reply (submit_reply r (flow_code (pr_p pr)) o) = Ok b ->
    item_of pr o (JFlow k r) (KSubmit k true (flow_code (pr_p pr)), b, CbSubmit (flow_code (pr_p pr)))
| I_submit k r code b : code = (if o_busy o then busy_code (pr_p pr) else 0) -> encode_reply (submit_reply r code o) = Ok b ->
    item_of pr o (JSubmit k r) (KSubmit k false code, b, CbSubmit code)
| I_report k r b : item_of pr o (JSubmit k r) (KReport k, b, CbReport)
| I_active k x b : active_answer (pr_p pr) x = Ok b -> item_of pr o (JActive k x) (KActive k, b, CbActive)
| I_term k x b : term_answer (pr_p pr) x = Ok b -> item_of pr o (JTerm k x) (KTerm k, b, CbTerm)
| I_force b : force_packet (pr_p pr) o = Ok b -> item_of pr o JForce (KForce, b, CbForce)
| I_heart b : heart_packet (pr_p pr) o = Some (Ok b) -> item_of pr o JHeart (KHeart, b, CbHeart)
| I_dly b : item_of pr o (JDly b) (KDly, b, CbDly).

Definition same_sess (s s' : sess) : Prop :=
  se_stat s' = se_stat s /\ se_ver s' = se_ver s /\ se_cid s' = se_cid s /\ se_win s' = se_win s /\ se_res s' = se_res s /\
  se_conn s' = se_conn s /\ se_mt s' = se_mt s /\ se_dly s' = se_dly s /\ se_rpt s' = se_rpt s.
Definition put (c : sconn) (its : list item) (ts : list task) : sconn :=
  SConn (sc_buf c) (sc_open c) (sc_sess c) (sc_chans c) ts (sc_queue c ++ its) (sc_wish c) (sc_log c).

Inductive tstep (pr : params) (o : orc) (c : sconn) (i : nat) (j : job) (q : pc) : sconn -> Prop :=
| T_fail : is_win j = false -> (forall x, plain_job pr o j c <> Some (Ok x)) -> tstep pr o c i j q (with_tasks c (del (sc_tasks c) i))
| T_quiet : j = JHeart -> tstep pr o c i j q (with_tasks c (del (sc_tasks c) i))
| T_plain it : is_win j = false -> item_of pr o j it -> se_conn (sc_sess c) = true ->
    tstep pr o c i j q (put c [it] (del (sc_tasks c) i))
| T_send g : is_win j = true -> (q = PStart /\ se_win (sc_sess c) = Some g) \/ q = PSend g -> tstep pr o c i j q (try_send c i j g)
| T_stuck : is_win j = true -> q = PStart \/ q = PRelease -> se_win (sc_sess c) = None ->
    tstep pr o c i j q (with_tasks c (upd (sc_tasks c) i (j, PStuck)))
| T_panic : is_win j = true -> (q = PWork /\ forall x, work pr o j c <> Ok x) \/ (exists a, q = PReport a) ->
    tstep pr o c i j q (with_tasks c (upd (sc_tasks c) i (j, PRelease)))
| T_submit k r it code a : j = JSubmit k r -> q = PWork -> item_of pr o j it -> se_conn (sc_sess c) = true ->
    code = (if o_busy o then busy_code (pr_p pr) else 0) -> fst (fst it) = KSubmit k false code -> a = submit_reply r code o ->
    tstep pr o c i j q (put c [it] (upd (sc_tasks c) i (j, if code =? 0 then PReport a else PRelease)))
| T_work s' its w : is_win j = true -> q = PWork -> (forall k r, j <> JSubmit k r) -> same_sess (sc_sess c) s' ->
    its = [] \/ (exists it, its = [it] /\ item_of pr o j it /\ se_conn (sc_sess c) = true) -> (sc_wish c = true -> w = true) ->
    tstep pr o c i j q (SConn (sc_buf c) (sc_open c) s' (sc_chans c) (upd (sc_tasks c) i (j, PRelease)) (sc_queue c ++ its) w (sc_log c))
| T_report its a k : q = PReport a -> is_win j = true ->
    its = [] \/ (exists b, its = [(KReport k, b, CbReport)] /\ item_of pr o j (KReport k, b, CbReport) /\ se_conn (sc_sess c) = true) ->
    tstep pr o c i j q (put c its (upd (sc_tasks c) i (j, PRelease)))
| T_recv g : is_win j = true -> (q = PRelease /\ se_win (sc_sess c) = Some g) \/ q = PRecv g -> tstep pr o c i j q (try_recv c i j g)
| T_idle : is_win j = true -> q = PStuck -> tstep pr o c i j q c.

Lemma AsyncWrite_ok c kd b f c' : AsyncWrite c kd b f = Ok c' -> se_conn (sc_sess c) = true /\ c' = with_queue c (sc_queue c ++ [(kd, b, f)]).
Proof. unfold AsyncWrite. destruct (se_conn _); [|discriminate]. intros H. split; [reflexivity|congruence]. Qed.
Lemma same_refl s : same_sess s s. Proof. repeat split. Qed.

Lemma plain_item pr o j c c1 : plain_job pr o j c = Some (Ok c1) ->
  is_win j = false /\ ((j = JHeart /\ c1 = c) \/ exists it, item_of pr o j it /\ se_conn (sc_sess c) = true /\ c1 = with_queue c (sc_queue c ++ [it])).
Proof.
  destruct j; cbn [plain_job is_win]; intros H; try discriminate; injection H as H; (split; [reflexivity|]).
  - right. unfold handle_login in H. destruct (login_check _ _ _) as [code0 l1] eqn:E.
    set (code := if code0 =? 0 then _ else code0) in H. apply bind_ok in H as (b & Hb & H). apply AsyncWrite_ok in H as [H1 ->].
    eexists. split; [|split; [exact H1|reflexivity]]. econstructor; [exact E| | | | |exact Hb]; unfold code; clear.
    + destruct (code0 =? 0) eqn:E; [lia|auto].
    + intros a Ha. rewrite Ha. destruct (code0 =? 0) eqn:E; [|lia]. destruct (ac_MaxConns a <=? _) eqn:L; [|lia]. destruct (pr_p pr); cbn; discriminate.
    + intros a Ha E. rewrite Ha, E. cbn [Z.eqb]. intros L. rewrite (proj2 (Z.leb_le _ _) L). reflexivity.
    + intros E. destruct (code0 =? 0) eqn:E'; [lia|reflexivity].
  - right. apply bind_ok in H as ([a c2] & H & E). injection E as <-. unfold sendSubmitResponse in H. apply bind_ok in H as (b & Hb & H).
    apply bind_ok in H as (c3 & H & E). injection E as <- <-. apply AsyncWrite_ok in H as [H1 ->].
    eexists. split; [|split; [exact H1|reflexivity]]. constructor. exact Hb.
  - right. apply bind_ok in H as (b & Hb & H). apply AsyncWrite_ok in H as [H1 ->]. eexists. split; [|split; [exact H1|reflexivity]]. constructor. exact Hb.
  - destruct (_ <? _); [|left; split; congruence]. destruct (heart_packet _ _) as [rb|] eqn:E; [|left; split; congruence].
    right. apply bind_ok in H as (b & Hb & H). apply AsyncWrite_ok in H as [H1 ->]. eexists. split; [|split; [exact H1|reflexivity]]. constructor. congruence.
  - right. apply AsyncWrite_ok in H as [H1 ->]. eexists. split; [|split; [exact H1|reflexivity]]. constructor.
Qed.
Lemma plain_none pr o j c : plain_job pr o j c = None <-> is_win j = true.
Proof. destruct j; cbn; split; intros; try discriminate; reflexivity. Qed.

Lemma on_task_step pr o i c j q : nth_error (sc_tasks c) i = Some (j, q) -> tstep pr o c i j q (on_task pr o i c).
Proof.
  intros N. unfold on_task. rewrite N. destruct (plain_job pr o j c) as [r|] eqn:P.
  - assert (W : is_win j = false) by (destruct (is_win j) eqn:W; [apply (plain_none pr o j c) in W; congruence|reflexivity]).
    destruct r as [c1| |].
    + destruct (plain_item _ _ _ _ _ P) as [_ [[J ->]|(it & H1 & H2 & ->)]].
      * apply T_quiet. exact J.
      * exact (T_plain pr o c i j q it W H1 H2).
    + apply T_fail; [exact W|]. intros x Hx. congruence.
    + apply T_fail; [exact W|]. intros x Hx. congruence.
  - apply plain_none in P. destruct q.
    + destruct (se_win (sc_sess c)) as [g|] eqn:E; [apply T_send; auto|apply T_stuck; auto].
    + apply T_send; auto.
    + destruct (work pr o j c) as [[c1 q1]| |] eqn:E.
      * destruct j; try discriminate P; cbn [work] in E.
        -- destruct (pr_find _ _ _) as [acc|]; [|discriminate]. destruct (negb _); [discriminate|]. unfold sendSubmitResponse in E.
           apply bind_ok in E as ([a c2] & E & E1). apply bind_ok in E as (b & Hb & E). apply bind_ok in E as (c3 & E & E2).
           apply AsyncWrite_ok in E as [H1 ->]. injection E2 as <- <-. injection E1 as <- <-.
           refine (T_submit pr o c i _ _ k r (_, _, _) _ _ eq_refl eq_refl _ H1 eq_refl _ eq_refl); [constructor; [reflexivity|exact Hb]|reflexivity].
        -- apply bind_ok in E as (b0 & Hb & E). apply bind_ok in E as (c2 & E & E1). apply AsyncWrite_ok in E as [H1 ->]. injection E1 as <- <-.
           refine (T_work pr o c i _ _ (sc_sess c) [_] (sc_wish c) P eq_refl _ (same_refl _) _ _); [discriminate| |auto].
           right. eexists. split; [reflexivity|]. split; [constructor; exact Hb|exact H1].
        -- injection E as <- <-. assert (Q : sc_queue c ++ [] = sc_queue c) by apply app_nil_r.
           unfold with_tasks, with_sess. cbn [sc_buf sc_open sc_sess sc_chans sc_tasks sc_queue sc_wish sc_log]. rewrite <- Q at 1.
           refine (T_work pr o c i _ _ _ [] (sc_wish c) P eq_refl _ _ _ _); [discriminate|repeat split|auto|auto].
        -- injection E as <- <-. assert (Q : sc_queue c ++ [] = sc_queue c) by apply app_nil_r.
           unfold with_tasks, with_sess. cbn [sc_buf sc_open sc_sess sc_chans sc_tasks sc_queue sc_wish sc_log]. rewrite <- Q at 1.
           refine (T_work pr o c i _ _ _ [] (sc_wish c) P eq_refl _ _ _ _); [discriminate|repeat split|auto|auto].
        -- apply bind_ok in E as (b0 & Hb & E). apply bind_ok in E as (c2 & E & E1). apply AsyncWrite_ok in E as [H1 ->]. injection E1 as <- <-.
           refine (T_work pr o c i _ _ (sc_sess c) [_] (sc_wish c) P eq_refl _ (same_refl _) _ _); [discriminate| |auto].
           right. eexists. split; [reflexivity|]. split; [constructor; exact Hb|exact H1].
        -- destruct (se_conn _) eqn:H1; [|discriminate]. injection E as <- <-. assert (Q : sc_queue c ++ [] = sc_queue c) by apply app_nil_r.
           unfold with_tasks, with_wish. cbn [sc_buf sc_open sc_sess sc_chans sc_tasks sc_queue sc_wish sc_log]. rewrite <- Q at 1.
           refine (T_work pr o c i _ _ _ [] true P eq_refl _ _ _ _); [discriminate|apply same_refl|auto|auto].
      * apply T_panic; [exact P|]. left. split; [reflexivity|]. intros x Hx. congruence.
      * apply T_panic; [exact P|]. left. split; [reflexivity|]. intros x Hx. congruence.
    + destruct (report pr o j a c) as [c1| |] eqn:E; [|apply T_panic; eauto|apply T_panic; eauto].
      assert (Q : sc_queue c ++ [] = sc_queue c) by apply app_nil_r.
      destruct j; cbn [report] in E;
      try (injection E as <-; unfold with_tasks; rewrite <- Q at 1; refine (T_report pr o c i _ _ [] a (Packet 0 0 []) eq_refl P _); left; reflexivity).
      apply bind_ok in E as (ob & Hb & E). destruct ob as [b|].
      * apply AsyncWrite_ok in E as [H1 ->]. refine (T_report pr o c i _ _ [_] a k eq_refl P _). right. exists b. split; [reflexivity|]. split; [constructor|exact H1].
      * injection E as <-. unfold with_tasks. rewrite <- Q at 1. refine (T_report pr o c i _ _ [] a k eq_refl P _). left. reflexivity.
    + destruct (se_win (sc_sess c)) as [g|] eqn:E; [apply T_recv; auto|apply T_stuck; auto].
    + apply T_recv; auto.
    + apply T_idle; auto.
Qed.

(** A read event *)
Definition closing (a : action) (c : sconn) : sconn := match a with ANone => c | AClose => OnClose c end.
Inductive astep (pr : params) (o : orc) (h : hkind) (k : packet) (c : sconn) : action -> sconn -> Prop :=
| A_close : astep pr o h k c AClose (note c (OGot k))
| A_login l : h = HLogin -> decode_login (pr_p pr) k = Ok l -> o_acc o = true -> astep pr o h k c ANone (spawn (note c (OGot k)) (JLogin k l))
| A_flow r : h = HSubmit -> se_stat (sc_sess c) = StatLogin -> decode_submit pr (se_ver (sc_sess c)) k = Ok r -> se_res (sc_sess c) = true ->
    o_lim o = false -> o_acc o = true -> astep pr o h k c ANone (spawn (note (note c (OGot k)) (OServe k true)) (JFlow k r))
| A_drop r : h = HSubmit -> se_stat (sc_sess c) = StatLogin -> decode_submit pr (se_ver (sc_sess c)) k = Ok r -> se_res (sc_sess c) = true ->
    o_lim o = false -> o_acc o = false -> astep pr o h k c ANone (note (note c (OGot k)) (OServe k true))
| A_submit r : h = HSubmit -> se_stat (sc_sess c) = StatLogin -> decode_submit pr (se_ver (sc_sess c)) k = Ok r -> se_res (sc_sess c) = true ->
    o_lim o = true -> o_acc o = true -> astep pr o h k c ANone (spawn (note (note c (OGot k)) (OServe k false)) (JSubmit k r))
| A_other j : h <> HLogin -> h <> HSubmit -> se_stat (sc_sess c) = StatLogin -> decode_other (pr_p pr) h k = Ok j -> se_res (sc_sess c) = true ->
    is_win j = true -> (forall k r, j <> JSubmit k r) -> o_acc o = true ->
    astep pr o h k c ANone (spawn (note (note c (OGot k)) (OServe k false)) j).
Lemma decode_other_win p h k j : decode_other p h k = Ok j -> is_win j = true /\ forall k r, j <> JSubmit k r.
Proof.
  destruct p, h; cbn [decode_other]; intros H; apply bind_ok in H as (x & _ & H); injection H as <-; (split; [reflexivity|intros; discriminate]).
Qed.
Lemma act_step pr o h k c a c1 : act pr o h k c = Ok (a, c1) -> astep pr o h k c a c1.
Proof.
  unfold act. cbv zeta. set (c0 := note c (OGot k)). change (sc_sess c0) with (sc_sess c). unfold sessionCheck.
  assert (X : forall h', h = h' -> h' <> HLogin -> h' <> HSubmit ->
    (if negb match se_stat (sc_sess c) with StatLogin => true | _ => false end then Ok (AClose, c0)
    else match decode_other (pr_p pr) h' k with
      | Err _ => Ok (AClose, c0) | Panic => Panic
      | Ok j => if negb (se_res (sc_sess c)) then Panic
        else if o_acc o then Ok (ANone, spawn (note c0 (OServe k false)) j) else Ok (AClose, c0) end) = Ok (a, c1) -> astep pr o h k c a c1).
  { intros h' E N1 N2 H'. destruct (se_stat (sc_sess c)) eqn:S; cbn [negb] in H'; try (injection H' as <- <-; apply A_close).
    destruct (decode_other _ _ _) as [j| |] eqn:D; try discriminate; try (injection H' as <- <-; apply A_close).
    destruct (se_res (sc_sess c)) eqn:R; cbn [negb] in H'; [|discriminate H']. destruct (o_acc o) eqn:Q; [|injection H' as <- <-; apply A_close].
    injection H' as <- <-. destruct (decode_other_win _ _ _ _ D). subst h'. apply A_other; auto. }
  intros H. destruct h; try (refine (X _ eq_refl _ _ H); discriminate).
  - destruct (se_stat (sc_sess c)) eqn:S; cbn [negb] in H; try (injection H as <- <-; apply A_close).
    destruct (decode_submit _ _ _) as [r| |] eqn:D; try discriminate; try (injection H as <- <-; apply A_close).
    destruct (se_res (sc_sess c)) eqn:R; cbn [negb] in H; [|discriminate H]. destruct (o_lim o) eqn:L; cbn [negb] in H; destruct (o_acc o) eqn:Q; injection H as <- <-.
    + apply A_submit; auto. + apply A_close. + apply A_flow; auto. + eapply A_drop; eauto.
  - destruct (decode_login _ _) as [l| |] eqn:D; try discriminate; try (injection H as <- <-; apply A_close).
    destruct (o_acc o) eqn:Q; injection H as <- <-; [apply A_login; auto|apply A_close].
Qed.
Inductive rstep (pr : params) (o : orc) (seg : bytes) (c : sconn) : sconn -> Prop :=
| R_closed : sc_open c = false -> rstep pr o seg c c
| R_wait : sc_open c = true -> DecodeAndCheckHeader (pr_p pr) (pr_drain pr) (sc_buf c ++ seg) = Ok FWait -> rstep pr o seg c (with_buf c (sc_buf c ++ seg))
| R_illegal : sc_open c = true -> DecodeAndCheckHeader (pr_p pr) (pr_drain pr) (sc_buf c ++ seg) = Ok FClose -> rstep pr o seg c (OnClose (with_buf c (sc_buf c ++ seg)))
| R_none k rest : sc_open c = true -> DecodeAndCheckHeader (pr_p pr) (pr_drain pr) (sc_buf c ++ seg) = Ok (FPass k rest) ->
    (forall h, In h (handlers (pr_p pr)) -> handler_cmd (pr_p pr) h <> pk_cmd k) -> rstep pr o seg c (with_buf c rest)
| R_act k rest h a c1 : sc_open c = true -> DecodeAndCheckHeader (pr_p pr) (pr_drain pr) (sc_buf c ++ seg) = Ok (FPass k rest) ->
    In h (handlers (pr_p pr)) -> handler_cmd (pr_p pr) h = pk_cmd k -> astep pr o h k c a c1 -> rstep pr o seg c (closing a (with_buf c1 rest)).
Lemma on_recv_step pr o seg c c' : on_recv pr o seg c = Ok c' -> rstep pr o seg c c'.
Proof.
  unfold on_recv. destruct (sc_open c) eqn:O; cbn [negb]; [|intros H; injection H as <-; apply R_closed; exact O].
  intros H. apply bind_ok in H as ([[a buf] c1] & H & E). unfold OnTraffic in H. apply bind_ok in H as (fo & F & H).
  destruct fo as [| |k rest].
  - injection H as <- <- <-. injection E as <-. apply R_wait; auto.
  - injection H as <- <- <-. injection E as <-. apply R_illegal; auto.
  - apply bind_ok in H as ([a1 c2] & H & E1). injection E1 as <- <- <-. apply chain_cases in H as [(-> & -> & N)|(h & Hin & Hc & HA)].
    + injection E as <-. eapply R_none; eauto.
    + apply act_step in HA. assert (X : c' = closing a1 (with_buf c2 rest)) by (destruct a1; cbn [closing]; congruence). rewrite X.
      eapply R_act; eauto.
Qed.

(** * PropLogins: property C55 (the limit of connections per client). *)
From Verif Require Import Base UtilsModel OptionsModel SpecText SpecWire CmppModel PropCmpp CmppBuildProofs SgipModel SmgpModel
  FrameModel SpecServer ServerModel ServerProofs PropServer PropWindow PropResponses PropAnswers PoolModel.

(** ** The answer to a login *)
Lemma put_keep n k f lo hi v f' : put_be k f lo hi v = Ok f' -> Z.of_nat n <= lo -> hi = lo + Z.of_nat k -> firstn n f' = firstn n f /\ zlen f' = zlen f.
Proof.
  intros E H1 H2. assert (H3 : hi <= zlen f) by (unfold put_be in E; destruct (_ && _ && _ && _) eqn:G; [|discriminate]; rewrite !andb_true_iff in G; lia).
  destruct (put_be_run n k f lo hi v H1 H2 H3) as (g & E' & A & B). rewrite E' in E. injection E as <-. auto.
Qed.
Lemma copy_keep n f lo hi s f' : copy_at f lo hi s = Ok f' -> Z.of_nat n <= lo -> firstn n f' = firstn n f /\ zlen f' = zlen f.
Proof.
  intros E H1. assert (H3 : lo <= hi /\ hi <= zlen f) by (unfold copy_at in E; destruct (_ && _ && _) eqn:G; [|discriminate]; rewrite !andb_true_iff in G; lia).
  destruct (copy_at_run n f lo hi s H1 (proj1 H3) (proj2 H3)) as (g & E' & A & B). rewrite E' in E. injection E as <-. auto.
Qed.
Lemma set_keep n f i v f' : set_at f i v = Ok f' -> Z.of_nat n <= i -> firstn n f' = firstn n f /\ zlen f' = zlen f.
Proof.
  intros E H1. assert (H3 : i < zlen f) by (unfold set_at in E; destruct (_ && _) eqn:G; [|discriminate]; rewrite !andb_true_iff in G; lia).
  destruct (set_at_run n f i v (conj H1 H3)) as (g & E' & A & B). rewrite E' in E. injection E as <-. auto.
Qed.
Lemma put_here k f lo hi v f' : put_be k f lo hi v = Ok f' -> hi = lo + Z.of_nat k -> firstn k (skipn (Z.to_nat lo) f') = be k v.
Proof.
  unfold put_be. destruct (_ && _ && _ && _) eqn:G; [|discriminate]. intros H E. assert (X : splice f lo (be k v) = f') by congruence. subst f'.
  rewrite !andb_true_iff in G. unfold splice, zlen in *. assert (L : length (firstn (Z.to_nat lo) f) = Z.to_nat lo) by (rewrite firstn_length; lia).
  rewrite skipn_app, L, Nat.sub_diag. rewrite (skipn_all2 (firstn _ _)) by lia. cbn [app skipn]. rewrite firstn_app, length_be, Nat.sub_diag, firstn_O, app_nil_r. apply firstn_all2. rewrite length_be. lia.
Qed.
Lemma window_firstn {A} (f : list A) a n : firstn n (skipn a f) = skipn a (firstn (a + n) f).
Proof. rewrite skipn_firstn_comm. f_equal. lia. Qed.
Lemma nth_firstn {A} (f : list A) i n d : (i < n)%nat -> nth i (firstn n f) d = nth i f d.
Proof. revert i f. induction n as [|n IH]; intros [|i] [|x f] H; cbn; auto; try lia. apply IH. lia. Qed.
Lemma login_bytes p md5 k l ac code : decode_login p k = Ok l -> bytes_ok (pk_body k) -> 0 <= code < 256 ->
  exists b, login_answer md5 (snd (login_check md5 l ac)) code = Ok b /\ login_reply p k code b.
Proof.
  intros D Hb Hc. destruct p; cbn [decode_login] in D; apply bind_ok in D as (x & D & E); injection E as <-; cbn [login_check login_reply].
  - destruct (C45_cmpp_connect md5 _ _ _ ac code D) as (b & E & A). destruct (Connect_Check md5 x ac) as [z x']. cbn [snd] in *. exists b. split; [exact E|]. split; [exact A|].
    cbn [login_answer] in E. clear D A. unfold ConnectResp_Encode, Connect_ToResponse in E. cbn [cr_h cr_status cr_auth cr_version] in E.
    assert (U : u8 code = code) by (unfold u8; apply Z.mod_small; lia). rewrite U in E.
    destruct (is_v3 (cn_version x')).
    + destruct (head_run (CHead 33 (RESP + CONNECT) (h_seq (cn_h x')))) as (f0 & F0 & P0 & L0 & _); [cbn; lia|]. rewrite F0 in E. cbn [bind] in E. rewrite L0 in E. change (head_len _) with 33 in E. cbn [h_len Z.eqb Pos.eqb] in E, L0.
      apply bind_ok in E as ([f1 i1] & E1 & E). apply bind_ok in E1 as (f1' & E1 & X). injection X as <- <-. apply bind_ok in E as (f2 & E2 & E3).
      destruct (put_keep 12 _ _ _ _ _ _ E1) as [_ K1]; [lia|lia|]. apply put_here in E1; [|lia].
      destruct (copy_keep 16 _ _ _ _ _ E2) as [P2 K2]; [lia|]. destruct (set_keep 16 _ _ _ _ E3) as [P3 K3]; [lia|].
      left. split; [lia|]. change (Z.to_nat 12) with 12%nat in E1. rewrite window_firstn in *. cbn [Nat.add] in *. congruence.
    + destruct (head_run (CHead 30 (RESP + CONNECT) (h_seq (cn_h x')))) as (f0 & F0 & P0 & L0 & _); [cbn; lia|]. rewrite F0 in E. cbn [bind] in E. rewrite L0 in E. change (head_len _) with 30 in E. cbn [h_len Z.eqb Pos.eqb] in E, L0.
      apply bind_ok in E as ([f1 i1] & E1 & E). apply bind_ok in E1 as (f1' & E1 & X). injection X as <- <-. apply bind_ok in E as (f2 & E2 & E3).
      destruct (set_keep 12 _ _ _ _ E1) as [_ K1]; [lia|]. apply set_val in E1.
      destruct (copy_keep 13 _ _ _ _ _ E2) as [P2 K2]; [lia|]. destruct (set_keep 13 _ _ _ _ E3) as [P3 K3]; [lia|].
      right. split; [lia|]. change (Z.to_nat 12) with 12%nat in E1. rewrite <- (nth_firstn b 12 13) by lia. rewrite P3, P2, nth_firstn by lia. rewrite E1. exact U.
  - destruct (C45_sgip_bind _ _ _ code Hb D) as (b & E & A & B). cbn [snd]. exists b. split; [exact E|].
    cbn [login_answer] in E. unfold BindRsp_Encode, Bind_ToResponse in E. cbn [sr_h sr_status] in E. apply bind_ok in E as (f0 & F0 & E).
    assert (U : u8 (u8 code) = code) by (unfold u8; rewrite Zmod_mod; apply Z.mod_small; lia). rewrite U in E.
    destruct (sh_seq (bd_h x)) as [[s0 s1] s2] eqn:SQ. destruct (shead_run (SHead 21 (RESP + SG_BIND) (s0, s1, s2)) s0 s1 s2) as (g & G & _ & L0 & _); [cbn; lia|reflexivity|].
    change (shead_Encode (SHead 21 (RESP + SG_BIND) (s0, s1, s2)) = Ok f0) in F0. rewrite G in F0. injection F0 as ->. cbn [sh_len] in L0. rewrite L0 in E.
    change ((21 =? 21) && (shead_len _ =? 21)) with true in E. cbv iota in E. destruct (set_keep 20 _ _ _ _ E) as [P3 K3]; [lia|]. apply set_val in E. assert (LB : zlen b = 21) by lia.
    unfold answers in A. rewrite LB in A. split; [exact A|]. split; [|split; [exact LB|exact E]].
    clear -B D LB Hb. unfold slice in B. replace ((0 <=? 12) && (12 <=? 20) && (20 <=? zlen b)) with true in B by (rewrite LB; reflexivity).
    unfold Bind_Decode in D. inv_bind D. destruct ((0 <=? 0) && (0 <=? 8) && (8 <=? zlen (pk_body k))); [|discriminate B]. injection B as B. exact B.
  - destruct (C45_smgp_login md5 _ _ _ ac code D) as (b & E & A). destruct (Login_Check md5 x ac) as [z x']. cbn [snd] in *. exists b. split; [exact E|].
    cbn [login_answer] in E. clear D. unfold LoginRsp_Encode, Login_ToResponse in E. cbn [lr_h lr_status lr_auth lr_version] in E.
    destruct (smhead_run (CHead 33 (RESP + SM_LOGIN) (h_seq (lg_h x')))) as (f0 & F0 & P0 & L0); [cbn; lia|]. rewrite F0 in E. cbn [bind] in E. rewrite L0 in E. change (smhead_len _) with 33 in E. cbn [h_len Z.eqb Pos.eqb] in E, L0.
    apply bind_ok in E as (f1 & E1 & E). apply bind_ok in E as (f2 & E2 & E3).
    destruct (put_keep 12 _ _ _ _ _ _ E1) as [_ K1]; [lia|lia|]. apply put_here in E1; [|lia].
    destruct (copy_keep 16 _ _ _ _ _ E2) as [P2 K2]; [lia|]. destruct (set_keep 16 _ _ _ _ E3) as [P3 K3]; [lia|].
    assert (LB : zlen b = 33) by lia. unfold answers in A. rewrite LB in A. split; [exact A|]. split; [exact LB|].
    change (Z.to_nat 12) with 12%nat in E1. rewrite window_firstn in *. cbn [Nat.add] in *. congruence.
Qed.

(** ** Connections of a client *)
(** The connection is open and logged in as client [x]; a positive answer to a login of [x] is queued. *)
Definition logged_in (x : bytes) (c : sconn) : bool :=
  sc_open c && match se_stat (sc_sess c) with StatLogin => true | _ => false end && beqb (se_cid (sc_sess c)) x.
Definition granted (x : bytes) (it : item) : bool :=
  match snd it with CbLogin _ code (Some ac) => (code =? 0) && beqb (ac_ClientId ac) x | _ => false end.
Definition in_grant (x : bytes) (c : sconn) : Z := if sc_open c then count (granted x) (sc_queue c) else 0.
Fixpoint sum {A} (f : A -> Z) (l : list A) : Z := match l with [] => 0 | a :: r => f a + sum f r end.
Definition logged_total (x : bytes) (cs : list sconn) : Z := count (logged_in x) cs.
Definition grants (x : bytes) (cs : list sconn) : Z := sum (in_grant x) cs.
(** In an orderly run a login of client [x] is checked only while no other one that was granted waits
    for its answer to be written. *)
Definition checks (pr : params) (x : bytes) (cs : list sconn) (e : sevent) : Prop :=
  match e with
  | SConnStep i (ETask j) o =>
    match nth_error cs i with
    | Some c => match nth_error (sc_tasks c) j with
                | Some (JLogin _ l, _) => exists a, pr_find pr (o_gen o) (login_key l) = Some a /\ ac_ClientId a = x
                | _ => False
                end
    | None => False
    end
  | _ => False
  end.
Fixpoint orderly (pr : params) (x : bytes) (cs : list sconn) (es : list sevent) : Prop :=
  match es with
  | [] => True
  | e :: r => (checks pr x cs e -> grants x cs = 0) /\ match sstep pr cs e with Ok cs1 => orderly pr x cs1 r | _ => True end
  end.

Lemma sum_app {A} (f : A -> Z) l r : sum f (l ++ r) = sum f l + sum f r.
Proof. induction l as [|a l IH]; cbn [app sum]; lia. Qed.
Lemma sum_upd {A} (f : A -> Z) l i a b : nth_error l i = Some a -> sum f (upd l i b) = sum f l - f a + f b.
Proof. intros H. rewrite (split_nth l i a H) at 2. unfold upd. rewrite !sum_app. cbn [sum]. lia. Qed.
Lemma in_grant_nonneg x c : 0 <= in_grant x c.
Proof. unfold in_grant. destruct (sc_open c); [apply count_nonneg|lia]. Qed.
Definition weight (x : bytes) (c : sconn) : Z := (if logged_in x c then 1 else 0) + in_grant x c.
Lemma sum_count {A} (f : A -> bool) l : count f l = sum (fun a => if f a then 1 else 0) l.
Proof. induction l as [|a l IH]; [reflexivity|]. rewrite count_cons, IH. reflexivity. Qed.
Lemma sum_plus {A} (f g : A -> Z) l : sum (fun a => f a + g a) l = sum f l + sum g l.
Proof. induction l as [|a l IH]; cbn [sum]; lia. Qed.
Lemma weights x cs : sum (weight x) cs = logged_total x cs + grants x cs.
Proof. unfold logged_total, grants. rewrite sum_count, <- sum_plus. reflexivity. Qed.

Lemma weight_close x c : weight x (OnClose c) <= weight x c.
Proof.
  unfold OnClose. destruct (negb (sc_open c)) eqn:O; [lia|]. unfold weight, in_grant, logged_in. cbn [note sc_open sc_queue sc_sess].
  cbn [andb]. pose proof (in_grant_nonneg x c) as H. unfold in_grant in H. destruct (_ && _ && _); lia.
Qed.
Lemma weight_same x c c' : sc_open c' = sc_open c -> se_stat (sc_sess c') = se_stat (sc_sess c) -> se_cid (sc_sess c') = se_cid (sc_sess c) ->
  count (granted x) (sc_queue c') = count (granted x) (sc_queue c) -> weight x c' = weight x c.
Proof. unfold weight, in_grant, logged_in. intros -> -> -> ->. reflexivity. Qed.
(** A goroutine changes the weight only by granting a login. *)
Lemma weight_task pr o i c x : weight x (on_task pr o i c) <= weight x c \/
  (exists k l a q, nth_error (sc_tasks c) i = Some (JLogin k l, q) /\ pr_find pr (o_gen o) (login_key l) = Some a /\ ac_ClientId a = x /\ o_cnt o x < ac_MaxConns a /\
   weight x (on_task pr o i c) <= weight x c + 1).
Proof.
  destruct (nth_error (sc_tasks c) i) as [[j q]|] eqn:N; [|left; unfold on_task; rewrite N; lia].
  assert (Q : forall its f s ch ts w, same_sess (sc_sess c) s -> (forall it, In it its -> item_of pr o j it) -> (forall k l, j <> JLogin k l) ->
     f = SConn (sc_buf c) (sc_open c) s ch ts (sc_queue c ++ its) w (sc_log c) -> weight x f <= weight x c).
  { intros its f s ch ts w (S1 & _ & S2 & _) I1 NJ ->. apply Z.eq_le_incl, weight_same; auto. cbn [sc_queue]. rewrite count_app.
    assert (Z0 : count (granted x) its = 0) by (apply count_zero; intros it Hi; specialize (I1 it Hi); destruct I1; try reflexivity; exfalso; eapply NJ; reflexivity). lia. }
  assert (S : forall ch ts, weight x (SConn (sc_buf c) (sc_open c) (sc_sess c) ch ts (sc_queue c) (sc_wish c) (sc_log c)) <= weight x c) by (intros; apply Z.eq_le_incl, weight_same; reflexivity).
  destruct (on_task_step pr o i c j q N) as [W F|Ej|it W I1 C1|g W Q1|W Q1 S1|W Q1|k r it code a Ej Eq I1 C1 Ec Ek Ea|s' its w W Eq Nj SS It Wi|its a k Eq W It|g W Q1|W Q1]; try (left; apply S).
  - destruct j as [k l| | | | | | | | | |]; try discriminate W.
    + inversion I1 as [? ? code0 l1 code b H1 H2 H3 H4 H5 H6| | | | | | | |]; subst.
      destruct (pr_find pr (o_gen o) (login_key l)) as [a|] eqn:FA.
      * destruct ((code =? 0) && beqb (ac_ClientId a) x) eqn:G.
        -- apply andb_prop in G as [G1 G2]. apply Z.eqb_eq in G1. apply beqb_iff in G2. right. exists k, l, a, q. split; [reflexivity|]. split; [exact FA|]. split; [exact G2|].
           specialize (H3 a eq_refl G1). rewrite G2 in H3. split; [exact H3|].
           unfold weight, logged_in, in_grant. cbn [put sc_open sc_sess sc_queue]. rewrite count_app, count_one. destruct (sc_open c); [|lia].
           destruct (granted x _); lia.
        -- left. apply Z.eq_le_incl, weight_same; auto. cbn [put sc_queue]. rewrite count_app, count_one. unfold granted at 2. cbn [snd]. rewrite G. lia.
      * left. apply Z.eq_le_incl, weight_same; auto. cbn [put sc_queue]. rewrite count_app, count_one. cbn. lia.
    + left. apply (Q [it] _ (sc_sess c) (sc_chans c) (del (sc_tasks c) i) (sc_wish c)); [apply same_refl|intros y [<-|[]]; exact I1|discriminate|reflexivity].
    + left. apply (Q [it] _ (sc_sess c) (sc_chans c) (del (sc_tasks c) i) (sc_wish c)); [apply same_refl|intros y [<-|[]]; exact I1|discriminate|reflexivity].
    + left. apply (Q [it] _ (sc_sess c) (sc_chans c) (del (sc_tasks c) i) (sc_wish c)); [apply same_refl|intros y [<-|[]]; exact I1|discriminate|reflexivity].
    + left. apply (Q [it] _ (sc_sess c) (sc_chans c) (del (sc_tasks c) i) (sc_wish c)); [apply same_refl|intros y [<-|[]]; exact I1|discriminate|reflexivity].
  - left. unfold try_send. destruct (ch_closed _); [apply S|]. destruct (_ <? _); apply S.
  - left. subst j. eapply (Q [it]); [apply same_refl|intros y [<-|[]]; exact I1|discriminate|reflexivity].
  - left. eapply (Q its); [exact SS| |intros k l ->; discriminate W|reflexivity]. destruct It as [->|(it & -> & I1 & _)]; [intros y []|intros y [<-|[]]; exact I1].
  - left. eapply (Q its); [apply same_refl| |intros k1 l ->; discriminate W|reflexivity]. destruct It as [->|(b & -> & I1 & _)]; [intros y []|intros y [<-|[]]; exact I1].
  - left. unfold try_recv. destruct (_ <? _); [apply S|]. destruct (ch_closed _); apply S.
  - left. lia.
Qed.
Lemma weight_write o c c' x : on_write o c = Ok c' -> weight x c' <= weight x c.
Proof.
  intros E. unfold on_write in E. destruct (sc_open c) eqn:O; [|injection E as <-; lia]. destruct (sc_queue c) as [|[[kd b] f] r] eqn:Q; [injection E as <-; lia|].
  assert (W : weight x c = (if logged_in x c then 1 else 0) + (if granted x (kd, b, f) then 1 else 0) + count (granted x) r).
  { unfold weight, in_grant. rewrite O, Q, count_cons. lia. }
  assert (G0 : 0 <= if granted x (kd, b, f) then 1 else 0) by (destruct (granted _ _); lia).
  assert (L0 : 0 <= (if logged_in x c then 1 else 0) <= 1) by (destruct (logged_in _ _); lia).
  assert (S : forall s w l, se_stat s = se_stat (sc_sess c) \/ se_stat s = StatClosing -> se_cid s = se_cid (sc_sess c) ->
     weight x (SConn (sc_buf c) true s (sc_chans c) (sc_tasks c) r w l) <= weight x c).
  { intros s w l S1 S2. rewrite W. set (d := SConn _ _ _ _ _ _ _ _). assert (E1 : in_grant x d = count (granted x) r) by reflexivity.
    assert (E2 : (if logged_in x d then 1 else 0) <= if logged_in x c then 1 else 0).
    { unfold logged_in, d. cbn [sc_open sc_sess]. rewrite O, S2. destruct S1 as [->| ->]; cbn [andb]; [lia|]. destruct (_ && _); lia. }
    unfold weight. rewrite E1. lia. }
  set (c1 := note (with_queue c r) (OOut kd b)) in E.
  assert (C1 : c1 = SConn (sc_buf c) true (sc_sess c) (sc_chans c) (sc_tasks c) r (sc_wish c) (sc_log c ++ [OOut kd b])) by (unfold c1, note, with_queue; cbn; rewrite O; reflexivity).
  destruct f; cbn [callback] in E; try (assert (c' = _) by (injection E as <-; reflexivity); subst c'; rewrite C1; apply S; [left; reflexivity|reflexivity]).
  - destruct ac as [ac|].
    + destruct (code =? 0) eqn:Z0.
      * apply bind_ok in E as (c2 & E & E1). unfold completeLogin in E. destruct (_ <? 0); [discriminate|].
        assert (X : weight x c' = (if beqb (ac_ClientId ac) x then 1 else 0) + count (granted x) r).
        { assert (E3 : c' = note c2 (OLogin k ac)) by congruence. rewrite E3. injection E as <-. rewrite C1. unfold weight, in_grant, logged_in.
          cbn [note with_chans with_sess closeResource sc_open sc_sess sc_queue se_stat se_cid andb]. lia. }
        rewrite X, W. unfold granted at 2. cbn [snd]. rewrite Z0. cbn [andb]. destruct (beqb _ _); lia.
      * assert (X : c' = with_wish (with_sess c1 (set_stat (sc_sess c1) StatClosing))) by congruence. rewrite X, C1. apply S; [right; reflexivity|reflexivity].
    + destruct (code =? 0); [discriminate|]. assert (X : c' = with_wish (with_sess c1 (set_stat (sc_sess c1) StatClosing))) by congruence. rewrite X, C1. apply S; [right; reflexivity|reflexivity].
  - assert (X : c' = if code =? 0 then with_sess c1 (add_mt (sc_sess c1) (o_now o)) else c1) by congruence. rewrite X, C1. destruct (code =? 0); apply S; auto.
Qed.
Lemma weight_step pr c e o c' x : step pr c (e, o) = Ok c' -> weight x c' <= weight x c \/
  (exists i k l a q, e = ETask i /\ nth_error (sc_tasks c) i = Some (JLogin k l, q) /\ pr_find pr (o_gen o) (login_key l) = Some a /\ ac_ClientId a = x /\ o_cnt o x < ac_MaxConns a /\ weight x c' <= weight x c + 1).
Proof.
  intros E. destruct e as [seg|i| | |]; cbn [step] in E.
  - left. apply on_recv_step in E. assert (S : forall b ts l, weight x (SConn b (sc_open c) (sc_sess c) (sc_chans c) ts (sc_queue c) (sc_wish c) l) <= weight x c) by (intros; apply Z.eq_le_incl, weight_same; reflexivity).
    destruct E as [O1|O1 F|O1 F|k rest O1 F N|k rest h a c1 O1 F Hin Hc HA]; [lia|apply S|etransitivity; [apply weight_close|apply S]|apply S|].
    assert (H : weight x (with_buf c1 rest) <= weight x c) by (destruct HA; apply S). destruct a; [exact H|]. etransitivity; [apply weight_close|exact H].
  - injection E as <-. destruct (weight_task pr o i c x) as [H|(k & l & a & q & H)]; [left; exact H|]. right. exists i, k, l, a, q. split; [reflexivity|exact H].
  - left. eapply weight_write; eauto.
  - left. injection E as <-. assert (S : forall ts, weight x (with_tasks c ts) <= weight x c) by (intros; apply Z.eq_le_incl, weight_same; reflexivity).
    unfold on_tick. destruct (negb _); [lia|]. destruct (_ || _); [destruct (o_acc o); [apply S|lia]|]. destruct (se_stat _); try lia.
    destruct (o_acc o), (o_dly o); try destruct (o_acc2 o); try lia; apply S.
  - left. injection E as <-. apply weight_close.
Qed.
(** Logged-in connections are among those CountSessionByClientId counts. *)
Lemma logged_counted x cs : logged_total x cs <= CountSessionByClientId cs x.
Proof.
  unfold logged_total, CountSessionByClientId, count. apply inj_le. induction cs as [|c cs IH]; [reflexivity|]. cbn [filter]. unfold logged_in at 1.
  destruct (sc_open c); cbn [andb]; [|exact IH]. destruct (beqb _ _); rewrite ?andb_false_r; [|exact IH]. destruct (se_stat _); cbn [andb length]; lia.
Qed.

(** ** C55 *)
(** In an orderly run no client has more logged-in connections than its account allows (the most it
    has allowed, if reloads change it). *)
Theorem C55_partial : forall pr x M es cs, 0 <= M -> (forall v n a, pr_find pr v n = Some a -> ac_ClientId a = x -> ac_MaxConns a <= M) ->
  orderly pr x [] es -> srun pr [] es = Ok cs -> logged_total x cs <= M.
Proof.
  intros pr x M es cs HM HA. assert (G : forall es cs0 cs, sum (weight x) cs0 <= M -> orderly pr x cs0 es -> srun pr cs0 es = Ok cs -> sum (weight x) cs <= M).
  { clear es cs. induction es as [|e es IH]; intros cs0 cs W O E; cbn [srun orderly] in *; [injection E as <-; exact W|].
    apply bind_ok in E as (cs1 & E1 & E2). rewrite E1 in O. destruct O as [O1 O2]. apply (IH cs1); auto. clear IH E2 O2.
    destruct e as [now|i e o]; cbn [sstep] in E1.
    - injection E1 as <-. rewrite sum_app. cbn [sum]. change (weight x (opened now)) with 0. lia.
    - destruct (nth_error cs0 i) as [c|] eqn:N; [|injection E1 as <-; exact W]. apply bind_ok in E1 as (c1 & E1 & E). injection E as <-.
      rewrite (sum_upd _ _ _ _ _ N). destruct (weight_step pr c e (counted cs0 o) c1 x E1) as [H|(j & k & l & a & q & -> & T & FA & EX & LT & H)]; [lia|].
      assert (CK : checks pr x cs0 (SConnStep i (ETask j) o)) by (cbn [checks]; rewrite N, T; eauto). specialize (O1 CK).
      rewrite weights in *. rewrite O1 in *. cbn [counted o_cnt] in LT. pose proof (logged_counted x cs0). specialize (HA _ _ _ FA EX). lia. }
  intros O E. assert (X : sum (weight x) cs <= M) by (apply (G es [] cs); auto). rewrite weights in X.
  assert (0 <= grants x cs) by (unfold grants; clear; induction cs as [|c cs IH]; cbn [sum]; [lia|]; pose proof (in_grant_nonneg x c); lia). lia.
Qed.
(** A login with good credentials that comes when the client has its maximum of sessions is answered
    with the protocol's code for that; when the answer is written the connection is being closed, and
    it is not logged in. *)
Theorem C55_refusal : forall pr cs i c j k l q a o, nth_error cs i = Some c -> nth_error (sc_tasks c) j = Some (JLogin k l, q) -> se_conn (sc_sess c) = true ->
  decode_login (pr_p pr) k = Ok l -> pk_cmd k = 1 -> bytes_ok (pk_body k) -> genuine (pr_p pr) (pr_md5 pr) (pr_find pr (o_gen o)) k a -> pr_find pr (o_gen o) (login_key l) = Some a ->
  ac_MaxConns a <= CountSessionByClientId cs (ac_ClientId a) ->
  exists b c', sstep pr cs (SConnStep i (ETask j) o) = Ok (upd cs i c') /\ login_reply (pr_p pr) k (match pr_p pr with P_CMPP => 5 | P_SGIP => 3 | P_SMGP => 2 end) b /\
    c' = SConn (sc_buf c) (sc_open c) (sc_sess c) (sc_chans c) (del (sc_tasks c) j)
           (sc_queue c ++ [(KLogin k (match pr_p pr with P_CMPP => 5 | P_SGIP => 3 | P_SMGP => 2 end), b, CbLogin k (match pr_p pr with P_CMPP => 5 | P_SGIP => 3 | P_SMGP => 2 end) (Some a))]) (sc_wish c) (sc_log c).
Proof.
  intros pr cs i c j k l q a o Ni Nj CO D Hc Hb G FA L. cbn [sstep]. rewrite Ni. cbn [step].
  assert (CK : fst (login_check (pr_md5 pr) l (pr_find pr (o_gen o) (login_key l))) = 0) by (apply (login_genuine (pr_p pr) (pr_md5 pr) (pr_find pr (o_gen o)) k l Hc Hb D); exists a; auto).
  destruct (login_bytes (pr_p pr) (pr_md5 pr) k l (pr_find pr (o_gen o) (login_key l)) (over_code (pr_p pr)) D Hb) as (b & E & R); [destruct (pr_p pr); cbn; lia|].
  exists b. unfold on_task. rewrite Nj. cbn [plain_job]. unfold handle_login. destruct (login_check _ _ _) as [code0 l1]. cbn [fst snd] in *. subst code0. cbn [Z.eqb]. cbn [counted o_gen]. rewrite FA.
  cbn [counted o_cnt]. replace (ac_MaxConns a <=? _) with true by (symmetry; apply Z.leb_le; exact L). rewrite E. cbn [bind]. unfold AsyncWrite. rewrite CO.
  eexists. split; [reflexivity|]. split; [exact R|]. reflexivity.
Qed.
Theorem C55_refusal_written : forall pr c k b a code r o, sc_open c = true -> sc_queue c = (KLogin k code, b, CbLogin k code (Some a)) :: r -> code <> 0 ->
  exists c', step pr c (EWrite, o) = Ok c' /\ sc_log c' = sc_log c ++ [OOut (KLogin k code) b] /\ sc_wish c' = true /\ forall x, logged_in x c' = false.
Proof.
  intros pr c k b a code r o O Q N. cbn [step]. unfold on_write. rewrite O, Q. cbn [callback]. replace (code =? 0) with false by lia.
  eexists. split; [reflexivity|]. split; [reflexivity|]. split; [reflexivity|]. intros x. unfold logged_in. cbn. rewrite andb_false_r. reflexivity.
Qed.

(** ** Refutation: the limit is checked when the login is handled, the client is counted when the
    answer is written *)
Definition ac_solo : authconf := AuthConf (ac_ISP ac_one) (ac_ClientId ac_one) (ac_LoginName ac_one) (ac_SharedSecret ac_one) (ac_Version ac_one) (ac_NeedReport ac_one) (ac_SmsDisplayNo ac_one)
  (ac_ServiceId ac_one) (ac_DefaultMsgLevel ac_one) (ac_FeeUserType ac_one) (ac_FeeTerminalType ac_one) (ac_FeeTerminalId ac_one) (ac_FeeType ac_one) (ac_FeeCode ac_one) (ac_FixedFee ac_one)
  (ac_LinkId ac_one) (ac_MtValidDuration ac_one) 1 (ac_MtWindowSize ac_one) (ac_Throughput ac_one).
Definition solo : bytes := ac_ClientId ac_solo.
Definition pr_solo : params := Params P_CMPP true md5_demo (fun b => Some b) (fun _ n => if beqb n solo then Some ac_solo else None) true 1000000000000.
Definition conn_recv : sconn := get (opened 0) (step pr_solo (opened 0) (ERecv login_demo, orc0)).
Definition conn_task : sconn := get (opened 0) (step pr_solo conn_recv (ETask 0, orc0)).
Definition conn_write : sconn := get (opened 0) (step pr_solo conn_task (EWrite, orc0)).
Lemma solo_recv cs : step pr_solo (opened 0) (ERecv login_demo, counted cs orc0) = Ok conn_recv.
Proof. vm_compute. reflexivity. Qed.
Lemma solo_task cs : CountSessionByClientId cs solo = 0 -> step pr_solo conn_recv (ETask 0, counted cs orc0) = Ok conn_task.
Proof.
  intros H. unfold counted. revert H. generalize (CountSessionByClientId cs) as f. intros f H. vm_compute in H. vm_compute. rewrite H. reflexivity.
Qed.
Lemma solo_write cs : step pr_solo conn_task (EWrite, counted cs orc0) = Ok conn_write.
Proof. vm_compute. reflexivity. Qed.
Lemma srun_app pr cs es es' : srun pr cs (es ++ es') = (cs1 <- srun pr cs es ;; srun pr cs1 es').
Proof. revert cs. induction es as [|e es IH]; intros cs; cbn [app srun]; [reflexivity|]. destruct (sstep pr cs e); cbn [bind]; auto. Qed.
Lemma nth_mid {A} (l r : list A) a : nth_error (l ++ a :: r) (length l) = Some a.
Proof. rewrite nth_error_app2 by lia. rewrite Nat.sub_diag. reflexivity. Qed.
Lemma upd_mid {A} (l r : list A) a b : upd (l ++ a :: r) (length l) b = l ++ b :: r.
Proof.
  unfold upd. rewrite firstn_app, Nat.sub_diag, firstn_all, app_nil_r. rewrite skipn_app, skipn_all2 by lia.
  replace (S (length l) - length l)%nat with 1%nat by lia. reflexivity.
Qed.
Lemma count_cs_zero cs : (forall c, In c cs -> se_cid (sc_sess c) = []) -> CountSessionByClientId cs solo = 0.
Proof.
  intros H. unfold CountSessionByClientId. induction cs as [|c cs IH]; [reflexivity|]. cbn [filter]. rewrite (H c (or_introl eq_refl)).
  replace (beqb [] solo) with false by reflexivity. rewrite andb_false_r. apply IH. intros; apply H; right; auto.
Qed.
Definition ask (n : nat) : list sevent := flat_map (fun i => [SConnStep i (ERecv login_demo) orc0; SConnStep i (ETask 0) orc0]) (seq 0 n).
Definition tell (n : nat) : list sevent := map (fun i => SConnStep i EWrite orc0) (seq 0 n).
Definition rush (n : nat) : list sevent := repeat (SOpen 0) n ++ ask n ++ tell n.
Lemma in_snoc {A} (x : A) l a : In x (l ++ [a]) -> In x l \/ x = a.
Proof. intros H. apply in_app_or in H as [H|[<-|[]]]; auto. Qed.
Lemma rush_open n cs : srun pr_solo cs (repeat (SOpen 0) n) = Ok (cs ++ repeat (opened 0) n).
Proof. revert cs. induction n as [|n IH]; intros cs; cbn [repeat srun sstep bind]; [rewrite app_nil_r; reflexivity|]. rewrite IH, <- app_assoc. reflexivity. Qed.
Lemma rush_ask m : forall n, srun pr_solo (repeat conn_task n ++ repeat (opened 0) m) (flat_map (fun i => [SConnStep i (ERecv login_demo) orc0; SConnStep i (ETask 0) orc0]) (seq n m)) = Ok (repeat conn_task (n + m)).
Proof.
  induction m as [|m IH]; intros n; cbn [seq flat_map app].
  - cbn [repeat srun]. rewrite app_nil_r, Nat.add_0_r. reflexivity.
  - cbn [repeat srun]. unfold sstep at 1. assert (N : forall c r, nth_error (repeat conn_task n ++ c :: r) n = Some c) by (intros; pose proof (nth_mid (repeat conn_task n) r c) as X; rewrite repeat_length in X; exact X).
    assert (U : forall c d r, upd (repeat conn_task n ++ c :: r) n d = repeat conn_task n ++ d :: r) by (intros; pose proof (upd_mid (repeat conn_task n) r c d) as X; rewrite repeat_length in X; exact X).
    rewrite N, solo_recv. cbn [bind]. rewrite U. unfold sstep at 1. rewrite N, solo_task.
    + cbn [bind]. rewrite U. specialize (IH (S n)). rewrite <- Nat.add_succ_comm. rewrite <- IH. f_equal. cbn [repeat].
      change (conn_task :: repeat (opened 0) m) with ([conn_task] ++ repeat (opened 0) m). rewrite app_assoc. rewrite <- repeat_cons. reflexivity.
    + apply count_cs_zero. intros c H. apply in_app_or in H as [H|[<-|H]]; [apply repeat_spec in H as ->; reflexivity|reflexivity|apply repeat_spec in H as ->; reflexivity].
Qed.
Lemma rush_tell m : forall n, srun pr_solo (repeat conn_write n ++ repeat conn_task m) (map (fun i => SConnStep i EWrite orc0) (seq n m)) = Ok (repeat conn_write (n + m)).
Proof.
  induction m as [|m IH]; intros n; cbn [seq map].
  - cbn [repeat srun]. rewrite app_nil_r, Nat.add_0_r. reflexivity.
  - cbn [repeat srun]. unfold sstep at 1. assert (N : forall c r, nth_error (repeat conn_write n ++ c :: r) n = Some c) by (intros; pose proof (nth_mid (repeat conn_write n) r c) as X; rewrite repeat_length in X; exact X).
    assert (U : forall c d r, upd (repeat conn_write n ++ c :: r) n d = repeat conn_write n ++ d :: r) by (intros; pose proof (upd_mid (repeat conn_write n) r c d) as X; rewrite repeat_length in X; exact X).
    rewrite N, solo_write. cbn [bind]. rewrite U. specialize (IH (S n)). rewrite <- Nat.add_succ_comm. rewrite <- IH. f_equal. cbn [repeat].
    change (conn_write :: repeat conn_task m) with ([conn_write] ++ repeat conn_task m). rewrite app_assoc. rewrite <- repeat_cons. reflexivity.
Qed.
(** For every number [n] there is a run in which a client whose account allows one connection has [n]
    logged-in connections. *)
Theorem C55_refuted : forall n, exists cs, srun pr_solo [] (rush n) = Ok cs /\ ac_MaxConns ac_solo = 1 /\
  (forall v m a, pr_find pr_solo v m = Some a -> a = ac_solo) /\ logged_total (ac_ClientId ac_solo) cs = Z.of_nat n.
Proof.
  intros n. exists (repeat conn_write n). split; [|split; [reflexivity|split]].
  - unfold rush. rewrite srun_app, rush_open. cbn [bind app]. rewrite srun_app. unfold ask. pose proof (rush_ask n 0) as X. cbn [repeat app Nat.add] in X. rewrite X. cbn [bind].
    unfold tell. apply (rush_tell n 0).
  - intros v m a. cbn [pr_solo pr_find]. destruct (beqb m solo); congruence.
  - unfold logged_total. rewrite <- (repeat_length conn_write n) at 2. generalize n as m. induction m as [|m IH]; [reflexivity|]. cbn [repeat length]. rewrite count_cons, IH.
    replace (logged_in _ conn_write) with true by (vm_compute; reflexivity). lia.
Qed.

(** The demo account allows four connections.  Four connections log in one after the other; a fifth is
    refused with code 5; the run is orderly. *)
Definition one_login (i : nat) : list sevent := [SOpen 0; SConnStep i (ERecv login_demo) orc0; SConnStep i (ETask 0) orc0; SConnStep i EWrite orc0].
Definition five : list sevent := one_login 0 ++ one_login 1 ++ one_login 2 ++ one_login 3 ++ one_login 4.
Definition replies (c : sconn) : list Z := flat_map (fun o => match o with OOut (KLogin _ code) _ => [code] | _ => [] end) (sc_log c).
Definition check_state (pr : params) (x : bytes) (cs : list sconn) (e : sevent) : bool :=
  match e with SConnStep _ (ETask _) _ => grants x cs =? 0 | _ => true end.
Fixpoint orderly_b (pr : params) (x : bytes) (cs : list sconn) (es : list sevent) : bool :=
  match es with [] => true | e :: r => check_state pr x cs e && match sstep pr cs e with Ok cs1 => orderly_b pr x cs1 r | _ => true end end.
Lemma orderly_b_sound pr x : forall es cs, orderly_b pr x cs es = true -> orderly pr x cs es.
Proof.
  induction es as [|e es IH]; intros cs; cbn [orderly_b orderly]; [auto|]. intros H. apply andb_prop in H as [H1 H2]. split.
  - destruct e as [|i [|j| | |] o]; cbn [checks check_state] in *; try contradiction. intros _. apply Z.eqb_eq, H1.
  - destruct (sstep pr cs e); auto.
Qed.
Example C55_five : orderly pr_demo (ac_ClientId ac_demo) [] five /\
  match srun pr_demo [] five with Ok cs => (logged_total (ac_ClientId ac_demo) cs, map replies cs, map sc_wish cs) | _ => (0, [], []) end =
  (4, [[0]; [0]; [0]; [0]; [5]], [false; false; false; false; true]).
Proof. split; [apply orderly_b_sound|]; vm_compute; reflexivity. Qed.
(** The run of the refutation is not orderly, and the fifth connection of [five] meets the hypotheses of C55_refusal. *)
Example C55_rush_disorder : orderly_b pr_solo solo [] (rush 2) = false.
Proof. vm_compute. reflexivity. Qed.
Definition four_state : list sconn := get [] (srun pr_demo [] (one_login 0 ++ one_login 1 ++ one_login 2 ++ one_login 3 ++ firstn 2 (one_login 4))).
Definition fifth : sconn := nth 4 four_state (opened 0).
Example C55_refusal_ex : exists k l q, nth_error four_state 4 = Some fifth /\ nth_error (sc_tasks fifth) 0 = Some (JLogin k l, q) /\ se_conn (sc_sess fifth) = true /\
  decode_login P_CMPP k = Ok l /\ pk_cmd k = 1 /\ forallb (fun b => (0 <=? b) && (b <? 256)) (pk_body k) = true /\
  fst (login_check md5_demo l (find_demo (login_key l))) = 0 /\ find_demo (login_key l) = Some ac_demo /\ (ac_MaxConns ac_demo <=? CountSessionByClientId four_state (ac_ClientId ac_demo)) = true.
Proof.
  pose (t := nth 0 (sc_tasks fifth) (JHeart, PStart)). destruct t as [j q] eqn:E; unfold t in E; vm_compute in E. destruct j as [k l| | | | | | | | | |]; try discriminate.
  exists k, l, q. injection E as <- <- <-. repeat (split; [vm_compute; reflexivity|]). vm_compute; reflexivity.
Qed.
Print Assumptions C55_partial.
Print Assumptions C55_refusal.
Print Assumptions C55_refusal_written.
Print Assumptions C55_refuted.

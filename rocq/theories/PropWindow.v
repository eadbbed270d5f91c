(** * PropWindow: properties C52 (window never exceeded) and C53 (window over re-login and close). *)
From Verif Require Import Base UtilsModel OptionsModel SpecText SpecWire CmppModel PropCmpp SgipModel SmgpModel
  FrameModel SpecServer ServerModel ServerProofs PropServer.

(** ** Vocabulary *)
(** Processing of a packet under the window: from taking the slot to giving it back. *)
Definition processing (t : task) : bool :=
  is_win (fst t) && match snd t with PWork | PReport _ | PRelease | PRecv _ => true | _ => false end.
Definition windowed (t : task) : bool := is_win (fst t).
Definition is_login (o : obs) : bool := match o with OLogin _ _ => true | _ => false end.
Definition logins (l : list obs) : Z := count is_login l.
(** The account of the last login that took effect. *)
Definition last_login (l : list obs) : option authconf :=
  fold_left (fun r o => match o with OLogin _ a => Some a | _ => r end) l None.
(** In a calm run a login takes effect only while no packet is waiting for or in processing. *)
Fixpoint calm (pr : params) (c : sconn) (es : list (event * orc)) : Prop :=
  match es with
  | [] => True
  | e :: r => match step pr c e with
              | Ok c1 => (logins (sc_log c) < logins (sc_log c1) -> forall t, In t (sc_tasks c) -> windowed t = false) /\ calm pr c1 r
              | _ => True
              end
  end.

(** ** Invariant *)
Definition settled (g : nat) (t : task) : Prop :=
  match snd t with PSend g' | PRecv g' => g' = g | PStuck => False | _ => True end.
Definition win_ok (c : sconn) : Prop :=
  let s := sc_sess c in
  se_conn s = true /\
  match se_win s with
  | None => se_res s = false /\ se_stat s <> StatLogin /\ (forall t, In t (sc_tasks c) -> windowed t = false) /\ logins (sc_log c) = 0 /\ last_login (sc_log c) = None
  | Some g =>
    (g < length (sc_chans c))%nat /\ ch_closed (get_chan c g) = false /\ se_res s = true /\
    ch_len (get_chan c g) = count processing (sc_tasks c) /\ ch_len (get_chan c g) <= ch_cap (get_chan c g) /\
    (forall t, In t (sc_tasks c) -> windowed t = true -> settled g t) /\
    exists a, last_login (sc_log c) = Some a /\ ch_cap (get_chan c g) = ac_MtWindowSize a /\ se_cid s = ac_ClientId a /\
      exists k, In (OLogin k a) (sc_log c)
  end.

Lemma last_snoc l o : last_login (l ++ [o]) = match o with OLogin _ a => Some a | _ => last_login l end.
Proof. unfold last_login. rewrite fold_left_app. reflexivity. Qed.
Lemma logins_snoc l o : logins (l ++ [o]) = logins l + (if is_login o then 1 else 0).
Proof. unfold logins. rewrite count_app, count_one. reflexivity. Qed.

Lemma win_note c o : is_login o = false -> win_ok c -> win_ok (note c o).
Proof.
  intros N (A & B). split; [exact A|]. cbn [note sc_sess]. destruct (se_win (sc_sess c)) as [g|].
  - destruct B as (B1 & B2 & B3 & B4 & B5 & B6 & a & B7 & B8 & B9 & k & B10).
    split; [exact B1|]. split; [exact B2|]. split; [exact B3|]. split; [exact B4|]. split; [exact B5|]. split; [exact B6|].
    exists a. cbn [note sc_log]. rewrite last_snoc. split; [destruct o; try discriminate N; exact B7|]. split; [exact B8|]. split; [exact B9|].
    exists k. apply in_or_app. auto.
  - destruct B as (B1 & B2 & B3 & B4 & B5). cbn [note sc_log sc_tasks]. rewrite logins_snoc, last_snoc, N.
    split; [exact B1|]. split; [exact B2|]. split; [exact B3|]. split; [lia|]. destruct o; try discriminate N; exact B5.
Qed.
Lemma win_buf c b : win_ok c -> win_ok (with_buf c b). Proof. auto. Qed.
Lemma win_spawn c j : win_ok c -> (is_win j = true -> se_stat (sc_sess c) = StatLogin) -> win_ok (spawn c j).
Proof.
  intros (A & B) N. split; [exact A|]. cbn [spawn with_tasks sc_sess]. destruct (se_win (sc_sess c)) as [g|].
  - destruct B as (B1 & B2 & B3 & B4 & B5 & B6 & B7). cbn [sc_tasks sc_chans sc_log]. change (get_chan (with_tasks c _) g) with (get_chan c g).
    split; [exact B1|]. split; [exact B2|]. split; [exact B3|]. split.
    + etransitivity; [exact B4|]. cbn [spawn with_tasks sc_tasks]. rewrite count_app, count_one. unfold processing at 3. cbn [fst snd]. rewrite andb_false_r. lia.
    + split; [exact B5|]. split; [|exact B7]. intros t Ht Hw. apply in_app_or in Ht as [Ht|[<-|[]]]; [auto|exact I].
  - destruct B as (B1 & B2 & B3 & B4 & B5). split; [exact B1|]. split; [exact B2|]. split; [|auto].
    cbn [sc_tasks]. intros t Ht. apply in_app_or in Ht as [Ht|[<-|[]]]; [auto|]. unfold windowed. cbn [fst]. destruct (is_win j); [exfalso; auto|reflexivity].
Qed.
Lemma same_win s s' : same_sess s s' -> se_stat s' = se_stat s /\ se_cid s' = se_cid s /\ se_win s' = se_win s /\ se_res s' = se_res s /\ se_conn s' = se_conn s.
Proof. unfold same_sess. intuition. Qed.
(** changes that do not touch channels and tasks *)
Lemma win_frame c s q w : se_cid s = se_cid (sc_sess c) -> se_win s = se_win (sc_sess c) -> se_res s = se_res (sc_sess c) ->
  se_conn s = se_conn (sc_sess c) -> (se_stat s = StatLogin -> se_stat (sc_sess c) = StatLogin) -> win_ok c ->
  win_ok (SConn (sc_buf c) (sc_open c) s (sc_chans c) (sc_tasks c) q w (sc_log c)).
Proof.
  intros E1 E2 E3 E4 E5 (A & B). unfold win_ok. cbn [sc_sess sc_chans sc_tasks sc_log]. rewrite E1, E2, E3, E4. split; [exact A|].
  destruct (se_win (sc_sess c)); [exact B|]. destruct B as (B1 & B2 & B3 & B4). split; [exact B1|]. split; [intros X; apply B2; auto|]. auto.
Qed.
(** replacing a windowed task by one in another place, slot kept or not taken *)
Lemma win_move c i j q q' : nth_error (sc_tasks c) i = Some (j, q) -> win_ok c -> is_win j = true ->
  processing (j, q') = processing (j, q) -> (forall g, se_win (sc_sess c) = Some g -> settled g (j, q')) ->
  win_ok (with_tasks c (upd (sc_tasks c) i (j, q'))).
Proof.
  intros N (A & B) W P S. split; [exact A|]. cbn [with_tasks sc_sess]. destruct (se_win (sc_sess c)) as [g|].
  - destruct B as (B1 & B2 & B3 & B4 & B5 & B6 & B7). cbn [sc_tasks sc_chans sc_log]. change (get_chan (with_tasks c _) g) with (get_chan c g).
    split; [exact B1|]. split; [exact B2|]. split; [exact B3|]. split.
    + etransitivity; [exact B4|]. cbn [with_tasks sc_tasks]. rewrite (count_upd _ _ _ _ _ N), P. lia.
    + split; [exact B5|]. split; [|exact B7]. intros t Ht Hw. apply (in_upd _ _ _ _ _ N) in Ht as [->|Ht]; auto.
  - exfalso. destruct B as (_ & _ & B3 & _). specialize (B3 (j, q) (nth_error_In _ _ N)). unfold windowed in B3. cbn [fst] in B3. congruence.
Qed.
Lemma win_remove c i j q : nth_error (sc_tasks c) i = Some (j, q) -> win_ok c -> processing (j, q) = false ->
  win_ok (with_tasks c (del (sc_tasks c) i)).
Proof.
  intros N (A & B) P. split; [exact A|]. cbn [with_tasks sc_sess]. destruct (se_win (sc_sess c)) as [g|].
  - destruct B as (B1 & B2 & B3 & B4 & B5 & B6 & B7). cbn [sc_tasks sc_chans sc_log]. change (get_chan (with_tasks c _) g) with (get_chan c g).
    split; [exact B1|]. split; [exact B2|]. split; [exact B3|]. split.
    + etransitivity; [exact B4|]. cbn [with_tasks sc_tasks]. rewrite (count_del _ _ _ _ N), P. lia.
    + split; [exact B5|]. split; [|exact B7]. intros t Ht Hw. apply in_del in Ht. auto.
  - destruct B as (B1 & B2 & B3 & B4). split; [exact B1|]. split; [exact B2|]. split; [|exact B4]. intros t Ht. apply in_del in Ht. auto.
Qed.
Lemma win_items c its ts : win_ok (with_tasks c ts) -> win_ok (put c its ts).
Proof. auto. Qed.

Lemma get_set c g x : (g < length (sc_chans c))%nat -> get_chan (set_chan c g x) g = x.
Proof. intros H. unfold get_chan, set_chan. cbn [with_chans sc_chans]. destruct (nth_error (sc_chans c) g) eqn:E; [eapply nth_upd_same; eauto|]. apply nth_error_None in E. lia. Qed.

(** the session's window, if a goroutine is stepped *)
Lemma win_some c i j q : nth_error (sc_tasks c) i = Some (j, q) -> win_ok c -> is_win j = true -> exists g, se_win (sc_sess c) = Some g.
Proof.
  intros N (A & B) W. destruct (se_win (sc_sess c)) as [g|]; [eauto|]. exfalso. destruct B as (_ & _ & B3 & _).
  specialize (B3 (j, q) (nth_error_In _ _ N)). unfold windowed in B3. cbn [fst] in B3. congruence.
Qed.
Lemma win_send c i j q g : nth_error (sc_tasks c) i = Some (j, q) -> win_ok c -> is_win j = true ->
  (q = PStart /\ se_win (sc_sess c) = Some g) \/ q = PSend g -> win_ok (try_send c i j g).
Proof.
  intros N H W Q. destruct (win_some c i j q N H W) as [g' G].
  assert (Eg : g' = g).
  { destruct Q as [[_ Q]|Q]; [congruence|]. destruct H as (_ & H). rewrite G in H. destruct H as (_ & _ & _ & _ & _ & S & _).
    specialize (S _ (nth_error_In _ _ N) W). subst q. cbn in S. auto. } subst g'.
  assert (P0 : processing (j, q) = false) by (unfold processing; destruct Q as [[-> _]| ->]; cbn; apply andb_false_r).
  unfold try_send. assert (H' := H). destruct H' as (A & B). rewrite G in B. destruct B as (B1 & B2 & B3 & B4 & B5 & B6 & B7). rewrite B2.
  destruct (ch_len (get_chan c g) <? ch_cap (get_chan c g)) eqn:L.
  - split; [exact A|]. cbn [set_chan with_chans with_tasks sc_sess]. rewrite G.
    match goal with |- context [get_chan ?d g] => change (get_chan d g) with (get_chan (set_chan c g (plus (get_chan c g) 1)) g) end.
    rewrite get_set by exact B1. cbn [plus set_chan with_chans with_tasks ch_closed ch_len ch_cap sc_chans sc_tasks sc_log].
    split; [rewrite length_upd; exact B1|]. split; [exact B2|]. split; [exact B3|]. split.
    + rewrite B4, (count_upd _ _ _ _ _ N), P0. unfold processing. cbn [fst snd]. rewrite W. cbn. lia.
    + split; [lia|]. split; [|exact B7]. intros t Ht Hw. apply (in_upd _ _ _ _ _ N) in Ht as [->|Ht]; [exact I|auto].
  - eapply win_move; eauto. { rewrite P0. unfold processing. cbn. apply andb_false_r. } intros g' G'. cbn. congruence.
Qed.
Lemma win_recv c i j q g : nth_error (sc_tasks c) i = Some (j, q) -> win_ok c -> is_win j = true ->
  (q = PRelease /\ se_win (sc_sess c) = Some g) \/ q = PRecv g ->
  win_ok (try_recv c i j g) /\ try_recv c i j g = set_chan (with_tasks c (del (sc_tasks c) i)) g (plus (get_chan c g) (-1)).
Proof.
  intros N H W Q. destruct (win_some c i j q N H W) as [g' G].
  assert (Eg : g' = g).
  { destruct Q as [[_ Q]|Q]; [congruence|]. destruct H as (_ & H). rewrite G in H. destruct H as (_ & _ & _ & _ & _ & S & _).
    specialize (S _ (nth_error_In _ _ N) W). subst q. cbn in S. auto. } subst g'.
  assert (P0 : processing (j, q) = true) by (unfold processing; cbn [fst snd]; rewrite W; destruct Q as [[-> _]| ->]; reflexivity).
  unfold try_recv. assert (H' := H). destruct H' as (A & B). rewrite G in B. destruct B as (B1 & B2 & B3 & B4 & B5 & B6 & B7).
  assert (L : 1 <= ch_len (get_chan c g)).
  { rewrite B4. rewrite (split_nth _ _ _ N), !count_app, count_one, P0. pose proof (count_nonneg processing (firstn i (sc_tasks c))).
    pose proof (count_nonneg processing (skipn (S i) (sc_tasks c))). lia. }
  replace (0 <? ch_len (get_chan c g)) with true by lia. split; [|reflexivity].
  split; [exact A|]. cbn [set_chan with_chans with_tasks sc_sess]. rewrite G.
  match goal with |- context [get_chan ?d g] => change (get_chan d g) with (get_chan (set_chan c g (plus (get_chan c g) (-1))) g) end.
  rewrite get_set by exact B1. cbn [plus set_chan with_chans with_tasks ch_closed ch_len ch_cap sc_chans sc_tasks sc_log].
  split; [rewrite length_upd; exact B1|]. split; [exact B2|]. split; [exact B3|]. split.
  + rewrite B4, (count_del _ _ _ _ N), P0. lia.
  + split; [lia|]. split; [|exact B7]. intros t Ht Hw. apply in_del in Ht. auto.
Qed.
Lemma win_task pr o i c : win_ok c -> win_ok (on_task pr o i c).
Proof.
  intros H. destruct (nth_error (sc_tasks c) i) as [[j q]|] eqn:N; [|unfold on_task; rewrite N; exact H].
  assert (V : is_win j = false -> win_ok (with_tasks c (del (sc_tasks c) i))).
  { intros W. eapply win_remove; eauto. unfold processing. cbn [fst]. rewrite W. reflexivity. }
  destruct (on_task_step pr o i c j q N) as [W F|Ej|it W I1 C1|g W Q|W Q S|W Q|k r it code a Ej Eq I1 C1 Ec Ek Ea|s' its w W Eq Nj SS It Wi|its a k Eq W It|g W Q|W Q].
  - auto.
  - apply V. subst j. reflexivity.
  - apply win_items. auto.
  - eapply win_send; eauto.
  - exfalso. destruct (win_some _ _ _ _ N H W) as [g G]. congruence.
  - eapply win_move; eauto; [|intros; exact I]. unfold processing. cbn [fst snd]. rewrite W. destruct Q as [[-> _]|[a ->]]; reflexivity.
  - apply win_items. assert (W : is_win j = true) by (subst j; reflexivity). eapply win_move; eauto; [|intros; destruct (code =? 0); exact I].
    unfold processing. cbn [fst snd]. rewrite W. subst q. destruct (code =? 0); reflexivity.
  - assert (M : win_ok (put c its (upd (sc_tasks c) i (j, PRelease)))).
    { apply win_items. eapply win_move; eauto; [|intros; exact I]. unfold processing. cbn [fst snd]. rewrite W, Eq. reflexivity. }
    apply same_win in SS as (S1 & S2 & S3 & S4 & S5).
    apply (win_frame (put c its (upd (sc_tasks c) i (j, PRelease))) s' (sc_queue c ++ its) w); auto. rewrite S1. auto.
  - apply win_items. eapply win_move; eauto; [|intros; exact I]. unfold processing. cbn [fst snd]. rewrite W, Eq. reflexivity.
  - eapply win_recv; eauto.
  - exact H.
Qed.
Lemma win_write o c c' : win_ok c -> on_write o c = Ok c' ->
  (logins (sc_log c) < logins (sc_log c') -> forall t, In t (sc_tasks c) -> windowed t = false) -> win_ok c'.
Proof.
  intros H E CALM. unfold on_write in E. destruct (sc_open c); [|injection E as <-; exact H].
  destruct (sc_queue c) as [|[[kd b] f] r]; [injection E as <-; exact H|].
  set (c1 := note (with_queue c r) (OOut kd b)) in E.
  assert (H1 : win_ok c1) by (unfold c1; apply win_note; [reflexivity|exact H]).
  assert (T1 : sc_tasks c1 = sc_tasks c) by reflexivity. assert (L1 : logins (sc_log c1) = logins (sc_log c)) by (unfold c1; cbn [note sc_log]; rewrite logins_snoc; cbn; lia).
  clearbody c1. destruct f; cbn [callback] in E;
    try (injection E as <-; first [refine (win_frame c1 _ (sc_queue c1) (sc_wish c1) eq_refl eq_refl eq_refl eq_refl _ H1)|refine (win_frame c1 _ (sc_queue c1) true eq_refl eq_refl eq_refl eq_refl _ H1)]; auto).
  - assert (FAIL : win_ok (with_wish (with_sess c1 (set_stat (sc_sess c1) StatClosing)))).
    { refine (win_frame c1 (set_stat (sc_sess c1) StatClosing) (sc_queue c1) true eq_refl eq_refl eq_refl eq_refl _ H1). cbn. discriminate. }
    destruct ac as [ac|]; destruct (code =? 0); try discriminate; try (injection E as <-; exact FAIL).
    apply bind_ok in E as (c2 & E2 & E). injection E as <-. unfold completeLogin in E2. destruct (_ <? 0) eqn:WN; [discriminate|]. injection E2 as <-.
    assert (CA : forall t, In t (sc_tasks c1) -> windowed t = false).
    { rewrite T1. apply CALM. unfold note. cbn [sc_log with_chans with_sess closeResource]. rewrite logins_snoc. cbn. lia. }
    destruct H1 as (A & _). split; [exact A|]. unfold note, get_chan. cbn [sc_sess sc_chans sc_tasks sc_log with_chans with_sess closeResource se_win se_res se_cid].
    set (l := match se_win (sc_sess c1) with Some _ => _ | None => _ end).
    rewrite app_nth2 by lia. rewrite Nat.sub_diag. cbn [nth ch_closed ch_len ch_cap]. rewrite app_length. cbn [length].
    split; [lia|]. split; [reflexivity|]. split; [reflexivity|].
    assert (Z0 : count processing (sc_tasks c1) = 0).
    { apply count_zero. intros t Ht. specialize (CA t Ht). unfold processing, windowed in *. rewrite CA. reflexivity. }
    split; [symmetry; exact Z0|]. split; [lia|]. split; [intros t Ht Hw; rewrite (CA t Ht) in Hw; discriminate|].
    exists ac. rewrite last_snoc. split; [reflexivity|]. split; [reflexivity|]. split; [reflexivity|]. exists k. apply in_or_app. right. left. reflexivity.
  - destruct (code =? 0); injection E as <-; [|exact H1]. exact (win_frame c1 (add_mt (sc_sess c1) (o_now o)) (sc_queue c1) (sc_wish c1) eq_refl eq_refl eq_refl eq_refl (fun x => x) H1).
Qed.
Lemma win_step pr c e c' : win_ok c -> step pr c e = Ok c' -> sc_open c' = true ->
  (logins (sc_log c) < logins (sc_log c') -> forall t, In t (sc_tasks c) -> windowed t = false) -> win_ok c'.
Proof.
  intros H E O CALM. destruct e as [[seg|i| | |] o]; cbn [step] in E.
  - apply on_recv_step in E. assert (CL : forall x, sc_open (OnClose x) = false) by (intros x; unfold OnClose; destruct (sc_open x) eqn:X; [reflexivity|exact X]).
    destruct E as [O1|O1 F|O1 F|k rest O1 F N|k rest h a c1 O1 F Hin Hc HA]; auto.
    + rewrite CL in O. discriminate.
    + destruct a; [|cbn [closing] in O; rewrite CL in O; discriminate]. cbn [closing] in *. apply win_buf.
      assert (H0 : win_ok (note c (OGot k))) by (apply win_note; auto).
      inversion HA; subst; try (apply win_spawn; [|cbn; intros; assumption || discriminate]); try (apply win_note; [reflexivity|]); auto.
  - injection E as <-. apply win_task. exact H.
  - eapply win_write; eauto.
  - injection E as <-. unfold on_tick in *. destruct (negb _); [exact H|]. destruct (_ || _).
    + destruct (o_acc o); [apply win_spawn; [exact H|discriminate]|exact H].
    + destruct (se_stat (sc_sess c)); auto.
      assert (H1 : win_ok (if o_acc o then spawn c JHeart else c)) by (destruct (o_acc o); [apply win_spawn; [exact H|discriminate]|exact H]).
      destruct (o_dly o); [|exact H1]. destruct (o_acc2 o); [|exact H1]. apply win_spawn; [exact H1|discriminate].
  - injection E as <-. unfold OnClose in O. destruct (sc_open c) eqn:X; cbn [negb] in O; [discriminate|congruence].
Qed.
Lemma open_back pr c e c' : step pr c e = Ok c' -> sc_open c' = true -> sc_open c = true.
Proof.
  intros E O. destruct (sc_open c) eqn:X; [reflexivity|]. destruct (C50_silent pr c [e] c' X) as [Y _]; [cbn [run]; rewrite E; reflexivity|congruence].
Qed.
Lemma open_back_run pr es c c' : run pr c es = Ok c' -> sc_open c' = true -> sc_open c = true.
Proof.
  revert c. induction es as [|e es IH]; intros c E O; cbn [run] in E; [congruence|]. apply bind_ok in E as (c1 & E1 & E2).
  eapply open_back; eauto.
Qed.
Lemma win_run pr es c c' : win_ok c -> run pr c es = Ok c' -> sc_open c' = true -> calm pr c es -> win_ok c'.
Proof.
  revert c. induction es as [|e es IH]; intros c H E O K; cbn [run calm] in *; [congruence|].
  apply bind_ok in E as (c1 & E1 & E2). rewrite E1 in K. destruct K as [K1 K2]. apply (IH c1); auto. apply (win_step pr c e); auto. apply (open_back_run pr es c1 c'); auto.
Qed.
Lemma win_opened now : win_ok (opened now).
Proof. split; [reflexivity|]. cbn. repeat split; try discriminate. intros t []. Qed.

(** ** The log only grows *)
Definition grows (c c' : sconn) : Prop := exists l, sc_log c' = sc_log c ++ l.
Lemma grows_refl c : grows c c. Proof. exists []. rewrite app_nil_r. reflexivity. Qed.
Lemma grows_trans a b c : grows a b -> grows b c -> grows a c.
Proof. intros [l E] [m F]. exists (l ++ m). rewrite F, E, app_assoc. reflexivity. Qed.
Lemma grows_eq c c' : sc_log c' = sc_log c -> grows c c'. Proof. exists []. rewrite app_nil_r. auto. Qed.
Lemma task_log pr o i c : sc_log (on_task pr o i c) = sc_log c.
Proof.
  destruct (nth_error (sc_tasks c) i) as [[j q]|] eqn:N; [|unfold on_task; rewrite N; auto].
  destruct (on_task_step pr o i c j q N); auto; unfold try_send, try_recv;
      repeat match goal with |- context [if ?b then _ else _] => destruct b end; auto.
Qed.
Lemma tick_log pr o c : sc_log (on_tick pr o c) = sc_log c.
Proof.
  unfold on_tick. destruct (negb _); auto. destruct (_ || _); [destruct (o_acc o); auto|].
  destruct (se_stat (sc_sess c)); auto. destruct (o_acc o); destruct (o_dly o); auto; destruct (o_acc2 o); auto.
Qed.
Lemma close_log c : grows c (OnClose c).
Proof. unfold OnClose. destruct (negb _); [apply grows_refl|]. exists [OClose]. reflexivity. Qed.
Lemma log_step pr c e c' : step pr c e = Ok c' -> grows c c'.
Proof.
  intros E. destruct e as [[seg|i| | |] o]; cbn [step] in E.
  - apply on_recv_step in E. destruct E as [O1|O1 F|O1 F|k rest O1 F N|k rest h a c1 O1 F Hin Hc HA]; try (apply grows_eq; reflexivity).
    + eapply grows_trans; [|apply close_log]. apply grows_eq. reflexivity.
    + assert (G : grows c (with_buf c1 rest)).
      { inversion HA; subst; try (exists [OGot k]; reflexivity); try (exists ([OGot k] ++ [OServe k true]); cbn; rewrite <- app_assoc; reflexivity);
        exists ([OGot k] ++ [OServe k false]); cbn; rewrite <- app_assoc; reflexivity. }
      unfold closing. destruct a; [exact G|]. eapply grows_trans; [exact G|apply close_log].
  - injection E as <-. apply grows_eq, task_log.
  - unfold on_write in E. destruct (sc_open c); [|injection E as <-; apply grows_refl].
    destruct (sc_queue c) as [|[[kd b] f] r]; [injection E as <-; apply grows_refl|].
    destruct f; cbn [callback] in E; try (injection E as <-; exists [OOut kd b]; reflexivity).
    + destruct ac as [ac|]; destruct (code =? 0); try discriminate; try (injection E as <-; exists [OOut kd b]; reflexivity).
      apply bind_ok in E as (c2 & E2 & E). injection E as <-. unfold completeLogin in E2. destruct (_ <? 0) eqn:WN; [discriminate|]. injection E2 as <-.
      exists ([OOut kd b] ++ [OLogin k ac]). cbn. rewrite <- app_assoc. reflexivity.
    + destruct (code =? 0); injection E as <-; exists [OOut kd b]; reflexivity.
  - injection E as <-. apply grows_eq, tick_log.
  - injection E as <-. apply close_log.
Qed.
Lemma log_run pr es c c' : run pr c es = Ok c' -> grows c c'.
Proof.
  revert c. induction es as [|e es IH]; intros c E; cbn [run] in E; [injection E as <-; apply grows_refl|].
  apply bind_ok in E as (c1 & E1 & E2). eapply grows_trans; [eapply log_step; eauto|auto].
Qed.
Lemma grows_logins c c' : grows c c' -> logins (sc_log c) <= logins (sc_log c').
Proof. intros [l E]. rewrite E. unfold logins. rewrite count_app. pose proof (count_nonneg is_login l). lia. Qed.
Lemma logins_in k a l : In (OLogin k a) l -> 1 <= logins l.
Proof.
  intros H. apply in_split in H as (x & y & ->). unfold logins. change (OLogin k a :: y) with ([OLogin k a] ++ y). rewrite !count_app, count_one. cbn [is_login].
  pose proof (count_nonneg is_login x). pose proof (count_nonneg is_login y). lia.
Qed.
Lemma once_calm pr es : forall c c', win_ok c -> run pr c es = Ok c' -> sc_open c' = true -> logins (sc_log c') <= 1 -> calm pr c es.
Proof.
  induction es as [|e es IH]; intros c c' H E O L; cbn [run calm] in *; [exact I|].
  apply bind_ok in E as (c1 & E1 & E2). rewrite E1.
  assert (K : logins (sc_log c) < logins (sc_log c1) -> forall t, In t (sc_tasks c) -> windowed t = false).
  { intros G t Ht. pose proof (grows_logins _ _ (log_run _ _ _ _ E2)). destruct H as (_ & H). destruct (se_win (sc_sess c)).
    - exfalso. destruct H as (_ & _ & _ & _ & _ & _ & a & _ & _ & _ & k & Hk). apply logins_in in Hk. lia.
    - destruct H as (_ & _ & H & _). auto. }
  split; [exact K|]. apply (IH c1 c'); auto. apply (win_step pr c e); auto. apply (open_back_run pr es c1 c'); auto.
Qed.

(** ** C52 *)
(** The size of the session's window: that of the account it logged in with. *)
Definition window_size (c : sconn) : Z := match last_login (sc_log c) with Some a => ac_MtWindowSize a | None => 0 end.
Lemma calm_bound pr now es c : run pr (opened now) es = Ok c -> sc_open c = true -> calm pr (opened now) es ->
  count processing (sc_tasks c) <= window_size c.
Proof.
  intros R O K. pose proof (win_run pr es _ _ (win_opened now) R O K) as (_ & H). unfold window_size. destruct (se_win (sc_sess c)).
  - destruct H as (_ & _ & _ & H4 & H5 & _ & a & H6 & H7 & _). rewrite H6. lia.
  - destruct H as (_ & _ & H & _ & H'). rewrite H'. apply Z.eq_le_incl, count_zero. intros t Ht. unfold processing. specialize (H t Ht). unfold windowed in H. rewrite H. reflexivity.
Qed.
(** What the next step of a goroutine under the window does: a waiting one gets a slot exactly if
    one is free, a working one goes on, a finished one gives its slot back at once. *)
Definition slot_law (pr : params) (c : sconn) : Prop :=
  forall o i j q, nth_error (sc_tasks c) i = Some (j, q) -> is_win j = true ->
  let c' := on_task pr o i c in
  match q with
  | PStart | PSend _ =>
    if count processing (sc_tasks c) <? window_size c
    then sc_tasks c' = upd (sc_tasks c) i (j, PWork) /\ count processing (sc_tasks c') = count processing (sc_tasks c) + 1
    else exists g, sc_tasks c' = upd (sc_tasks c) i (j, PSend g) /\ count processing (sc_tasks c') = count processing (sc_tasks c)
  | PWork => exists q', sc_tasks c' = upd (sc_tasks c) i (j, q') /\ (q' = PRelease \/ exists a, q' = PReport a)
  | PReport _ => sc_tasks c' = upd (sc_tasks c) i (j, PRelease)
  | PRelease | PRecv _ => sc_tasks c' = del (sc_tasks c) i /\ count processing (sc_tasks c') = count processing (sc_tasks c) - 1
  | PStuck => False
  end.
Lemma win_slots pr c : win_ok c -> slot_law pr c.
Proof.
  intros H o i j q N W. destruct (win_some c i j q N H W) as [g G]. assert (H' := H). destruct H' as (_ & H').
  rewrite G in H'. destruct H' as (B1 & B2 & B3 & B4 & B5 & B6 & a & B7 & B8 & _).
  assert (WS : window_size c = ch_cap (get_chan c g)) by (unfold window_size; rewrite B7; auto).
  assert (TS : processing (j, q) = false -> sc_tasks (try_send c i j g) = if count processing (sc_tasks c) <? window_size c then upd (sc_tasks c) i (j, PWork) else upd (sc_tasks c) i (j, PSend g)).
  { intros _. unfold try_send. rewrite B2, WS, <- B4. destruct (_ <? _); reflexivity. }
  assert (TS' : processing (j, q) = false -> if count processing (sc_tasks c) <? window_size c
    then sc_tasks (try_send c i j g) = upd (sc_tasks c) i (j, PWork) /\ count processing (sc_tasks (try_send c i j g)) = count processing (sc_tasks c) + 1
    else exists g0, sc_tasks (try_send c i j g) = upd (sc_tasks c) i (j, PSend g0) /\ count processing (sc_tasks (try_send c i j g)) = count processing (sc_tasks c)).
  { intros P. specialize (TS P). assert (PW : processing (j, PWork) = true) by (unfold processing; cbn [fst snd]; rewrite W; reflexivity).
    assert (PS : processing (j, PSend g) = false) by (unfold processing; cbn [fst snd]; apply andb_false_r).
    destruct (_ <? _); [|exists g]; rewrite TS, (count_upd _ _ _ _ _ N), P, ?PW, ?PS; (split; [reflexivity|lia]). }
  assert (TR : (q = PRelease /\ se_win (sc_sess c) = Some g) \/ q = PRecv g -> sc_tasks (try_recv c i j g) = del (sc_tasks c) i /\ count processing (sc_tasks (try_recv c i j g)) = count processing (sc_tasks c) - 1).
  { intros Q. destruct (win_recv c i j q g N H W Q) as [_ ->]. cbn [set_chan with_chans with_tasks sc_tasks]. split; [reflexivity|].
    assert (PW : processing (j, q) = true) by (unfold processing; cbn [fst snd]; rewrite W; destruct Q as [[-> _]| ->]; reflexivity).
    rewrite (count_del _ _ _ _ N), PW. lia. }
  cbn zeta. specialize (B6 _ (nth_error_In _ _ N) W). unfold on_task. rewrite N.
  assert (P0 : plain_job pr o j c = None) by (destruct j; try discriminate W; reflexivity). rewrite P0.
  destruct q as [|g'| |a'| |g'|]; cbn [settled snd] in B6; try subst g'; try rewrite G.
  - apply TS'. unfold processing. cbn. apply andb_false_r.
  - apply TS'. unfold processing. cbn. apply andb_false_r.
  - destruct (work pr o j c) as [[c1 q1]| |] eqn:EW; [|exists PRelease; cbn; auto|exists PRelease; cbn; auto].
    exists q1. cbn [with_tasks sc_tasks]. assert (T1 : sc_tasks c1 = sc_tasks c /\ (q1 = PRelease \/ exists a, q1 = PReport a)).
    { destruct j; try discriminate W; cbn [work] in EW.
      - destruct (pr_find pr (o_gen o) (se_cid (sc_sess c))); [|discriminate]. destruct (negb (pr_delay_ok pr)); [discriminate|].
        apply bind_ok in EW as ([a1 c2] & E1 & E2). unfold sendSubmitResponse in E1. apply bind_ok in E1 as (b1 & E3 & E1). apply bind_ok in E1 as (c3 & E4 & E1).
        assert (c3 = c2) by congruence. subst c3. unfold AsyncWrite in E4. destruct (se_conn (sc_sess c)); [|discriminate]. injection E4 as <-. injection E2 as <- <-.
        split; [reflexivity|]. destruct (_ =? _); eauto.
      - apply bind_ok in EW as (p & _ & EW). apply bind_ok in EW as (c2 & E4 & E2). unfold AsyncWrite in E4. destruct (se_conn (sc_sess c)); [|discriminate]. injection E4 as <-. injection E2 as <- <-. auto.
      - injection EW as <- <-. auto.
      - injection EW as <- <-. auto.
      - apply bind_ok in EW as (p & _ & EW). apply bind_ok in EW as (c2 & E4 & E2). unfold AsyncWrite in E4. destruct (se_conn (sc_sess c)); [|discriminate]. injection E4 as <-. injection E2 as <- <-. auto.
      - destruct (se_conn (sc_sess c)); [|discriminate]. injection EW as <- <-. auto. }
    destruct T1 as [-> T1]. auto.
  - destruct (report pr o j a' c) as [c1| |] eqn:ER; [|reflexivity|reflexivity]. cbn [with_tasks sc_tasks].
    assert (T1 : sc_tasks c1 = sc_tasks c).
    { destruct j; cbn [report] in ER; try (injection ER as <-; reflexivity). apply bind_ok in ER as (ob & _ & ER). destruct ob; [|injection ER as <-; reflexivity].
      unfold AsyncWrite in ER. destruct (se_conn (sc_sess c)); [|discriminate]. injection ER as <-. reflexivity. }
    rewrite T1. reflexivity.
  - apply TR. auto.
  - apply TR. auto.
  - exact B6.
Qed.

(** C52: while the connection is open and has logged in at most once, never more packets are in
    processing than the account's window size. *)
Theorem C52_bound : forall pr now es c, run pr (opened now) es = Ok c -> sc_open c = true -> logins (sc_log c) <= 1 ->
  count processing (sc_tasks c) <= window_size c.
Proof. intros pr now es c R O L. eapply calm_bound; eauto. eapply once_calm; eauto. apply win_opened. Qed.
(** C52: and no slot is lost: a goroutine waiting for the window is admitted exactly if fewer
    than the window size are in processing, none is ever stuck, and one that has finished
    frees its slot. *)
Theorem C52_slots : forall pr now es c, run pr (opened now) es = Ok c -> sc_open c = true -> logins (sc_log c) <= 1 -> slot_law pr c.
Proof. intros pr now es c R O L. apply win_slots. eapply win_run; eauto; [apply win_opened|]. eapply once_calm; eauto. apply win_opened. Qed.

(** The demo server with a window of one. *)
Definition ac_one : authconf :=
  AuthConf [67;77;80;80] [57;48;49;48;48;49] [] [115;101;99] 48 1 [57;53] [77;49] 5 2 0 [] [48;50] [49;48] [] [] 0 4 1 100.
Definition pr_one : params := Params P_CMPP true md5_demo (fun b => Some b) (fun _ n => if beqb n (ac_ClientId ac_one) then Some ac_one else None) true 1000000000000.
(** the same environment when one session of the client is logged in already *)
Definition orc1 : orc := Orc true true true 5 false false 1 2 3 (1, 2, 3) (repeat 0 10) (repeat 0 10) (repeat 48 10) (repeat 48 10) (repeat 48 10) 0 0 (fun _ => 1) None 0.
Definition login_events : list (event * orc) := [(ERecv login_demo, orc0); (ETask 0, orc0); (EWrite, orc0)].
(** Two active tests arrive; the first takes the only slot, the second has to wait. *)
Definition es_one : list (event * orc) := login_events ++
  map (fun e => (e, orc1)) [ERecv (active_demo ++ [0]); ERecv (active_demo ++ [0]); ETask 0; ETask 1].
Definition view (r : res sconn) : option (bool * list Z * Z * Z) :=
  match r with
  | Ok c => Some (sc_open c, map (fun t => match snd t with PStart => 0 | PSend _ => 1 | PWork => 2 | PReport _ => 3 | PRelease => 4 | PRecv _ => 5 | PStuck => 6 end) (sc_tasks c),
                  logins (sc_log c), window_size c)
  | _ => None
  end.
Example C52_ex : view (run pr_one (opened 0) es_one) = Some (true, [2; 1], 1, 1).
Proof. vm_compute. reflexivity. Qed.
(** After two more steps of the first goroutine the second gets in. *)
Example C52_ex2 : view (run pr_one (opened 0) (es_one ++ map (fun e => (e, orc1)) [ETask 0; ETask 0; ETask 0])) = Some (true, [2], 1, 1).
Proof. vm_compute. reflexivity. Qed.
Print Assumptions C52_bound.
Print Assumptions C52_slots.

(** ** C53 *)
(** Workers that were handed a packet and are not blocked sending or receiving. *)
Definition in_flight (t : task) : bool :=
  is_win (fst t) && match snd t with PStart | PWork | PReport _ | PRelease | PStuck => true | _ => false end.
(** Channels other than the session's window are closed; blocked goroutines wait on channels that exist. *)
Definition chans_ok (c : sconn) : Prop :=
  (forall g, (g < length (sc_chans c))%nat -> se_win (sc_sess c) <> Some g -> ch_closed (get_chan c g) = true) /\
  (forall t g, In t (sc_tasks c) -> snd t = PSend g \/ snd t = PRecv g -> (g < length (sc_chans c))%nat) /\
  (forall g, se_win (sc_sess c) = Some g -> (g < length (sc_chans c))%nat) /\
  (sc_open c = false -> se_win (sc_sess c) = None).
Lemma ch_frame c c' : chans_ok c -> sc_chans c' = sc_chans c -> se_win (sc_sess c') = se_win (sc_sess c) -> sc_open c' = sc_open c ->
  (forall t, In t (sc_tasks c') -> In t (sc_tasks c) \/ forall g, snd t <> PSend g /\ snd t <> PRecv g) -> chans_ok c'.
Proof.
  intros (A & B & C & D) E1 E2 E3 E4. unfold chans_ok, get_chan. rewrite E1, E2, E3. split; [exact A|]. split; [|auto].
  intros t g Ht X. destruct (E4 t Ht) as [Y|Y]; [eauto|]. destruct (Y g). intuition.
Qed.
Lemma get_set_other c g x h : h <> g -> (g < length (sc_chans c))%nat -> get_chan (set_chan c g x) h = get_chan c h.
Proof. intros H L. unfold get_chan, set_chan. cbn [with_chans sc_chans]. destruct (nth_error (sc_chans c) g) eqn:E; [eapply nth_upd_other; eauto|]. apply nth_error_None in E. lia. Qed.
Lemma ch_chan c g x : chans_ok c -> (g < length (sc_chans c))%nat -> ch_closed x = ch_closed (get_chan c g) -> chans_ok (set_chan c g x).
Proof.
  intros (A & B & C & D) L E. assert (LU : length (sc_chans (set_chan c g x)) = length (sc_chans c)) by (cbn; apply length_upd; exact L).
  unfold chans_ok. rewrite LU. cbn [set_chan with_chans sc_tasks sc_sess sc_open]. split; [|auto].
  intros h Hh N. change (ch_closed (get_chan (set_chan c g x) h) = true). destruct (Nat.eq_dec h g) as [->|X].
  - rewrite get_set by exact L. rewrite E. auto.
  - rewrite get_set_other by auto. auto.
Qed.
Lemma ch_tasks c ts : chans_ok c -> (forall t, In t ts -> In t (sc_tasks c) \/ forall g, snd t = PSend g \/ snd t = PRecv g -> (g < length (sc_chans c))%nat) ->
  chans_ok (with_tasks c ts).
Proof.
  intros (A & B & C & D) H. split; [exact A|]. split; [|auto]. cbn. intros t g Ht X. destruct (H t Ht); eauto.
Qed.
Lemma ch_task pr o i c : chans_ok c -> chans_ok (on_task pr o i c).
Proof.
  intros H. destruct (nth_error (sc_tasks c) i) as [[j q]|] eqn:N; [|unfold on_task; rewrite N; auto].
  assert (DEL : chans_ok (with_tasks c (del (sc_tasks c) i))) by (apply ch_tasks; [exact H|]; intros t Ht; left; eapply in_del; eauto).
  assert (UPD : forall q', (forall g, q' = PSend g \/ q' = PRecv g -> (g < length (sc_chans c))%nat) -> chans_ok (with_tasks c (upd (sc_tasks c) i (j, q')))).
  { intros q' Q. apply ch_tasks; [exact H|]. intros t Ht. apply (in_upd _ _ _ _ _ N) in Ht as [->|Ht]; auto. }
  assert (IN : forall g, q = PSend g \/ q = PRecv g \/ se_win (sc_sess c) = Some g -> (g < length (sc_chans c))%nat).
  { destruct H as (_ & B & C & _). intros g [Q|[Q|Q]]; [| |auto]; (eapply B; [eapply nth_error_In; eauto|cbn; auto]). }
  destruct (on_task_step pr o i c j q N) as [W F|Ej|it W I1 C1|g W Q|W Q S|W Q|k r it code a Ej Eq I1 C1 Ec Ek Ea|s' its w W Eq Nj SS It Wi|its a k Eq W It|g W Q|W Q]; auto.
  - assert (L : (g < length (sc_chans c))%nat) by (apply IN; intuition). unfold try_send. destruct (ch_closed (get_chan c g)) eqn:E; [exact DEL|]. destruct (_ <? _).
    + apply ch_chan; [apply UPD; intros ? [X|X]; discriminate|exact L|reflexivity].
    + apply UPD. intros g' [X|X]; [|discriminate]. congruence.
  - apply UPD. intros ? [X|X]; discriminate.
  - apply UPD. intros ? [X|X]; discriminate.
  - apply (UPD (if code =? 0 then PReport a else PRelease)). destruct (code =? 0); intros ? [X|X]; discriminate.
  - apply same_win in SS as (_ & _ & S3 & _). apply (ch_frame (with_tasks c (upd (sc_tasks c) i (j, PRelease)))); auto. apply UPD. intros ? [X|X]; discriminate.
  - apply (UPD PRelease). intros ? [X|X]; discriminate.
  - assert (L : (g < length (sc_chans c))%nat) by (apply IN; intuition). unfold try_recv. destruct (0 <? _).
    + apply ch_chan; [exact DEL|exact L|reflexivity].
    + destruct (ch_closed (get_chan c g)); [exact DEL|]. apply UPD. intros g' [X|X]; [discriminate|]. congruence.
Qed.
Lemma ch_resource c : chans_ok c -> chans_ok (closeResource c) /\ (forall g, (g < length (sc_chans (closeResource c)))%nat -> ch_closed (get_chan (closeResource c) g) = true)
  /\ length (sc_chans (closeResource c)) = length (sc_chans c).
Proof.
  intros (A & B & C & D). unfold closeResource. set (l := match se_win (sc_sess c) with Some _ => _ | None => _ end).
  assert (L : length l = length (sc_chans c)) by (unfold l; destruct (se_win (sc_sess c)); [apply length_upd; auto|reflexivity]).
  assert (K : forall g, (g < length l)%nat -> ch_closed (nth g l no_chan) = true).
  { rewrite L. intros g Hg. unfold l. destruct (se_win (sc_sess c)) as [w|] eqn:W; [|apply A; [exact Hg|discriminate]].
    destruct (nth_error (sc_chans c) w) as [y|] eqn:E; [|apply nth_error_None in E; specialize (C w eq_refl); lia].
    destruct (Nat.eq_dec g w) as [->|X]; [erewrite nth_upd_same by eauto; reflexivity|]. erewrite nth_upd_other by eauto. apply A; [exact Hg|congruence]. }
  split; [|split; [exact K|exact L]]. unfold chans_ok. cbn [with_chans with_sess sc_chans sc_sess sc_tasks sc_open se_win]. rewrite L.
  split; [intros g Hg _; apply K; lia|]. split; [exact B|]. split; [discriminate|auto].
Qed.
Lemma ch_close c : chans_ok c -> chans_ok (OnClose c).
Proof.
  intros H. unfold OnClose. destruct (negb (sc_open c)); [exact H|]. destruct (ch_resource c H) as ((A & B & C & D) & _ & _).
  split; [exact A|]. split; [exact B|]. split; [exact C|reflexivity].
Qed.
Lemma ch_note c o : chans_ok c -> chans_ok (note c o). Proof. auto. Qed.
Lemma ch_spawn c j : chans_ok c -> chans_ok (spawn c j).
Proof. intros H. apply ch_tasks; [exact H|]. intros t Ht. apply in_app_or in Ht as [Ht|[<-|[]]]; [auto|]. right. intros g [X|X]; discriminate. Qed.
Lemma ch_step pr c e c' : chans_ok c -> step pr c e = Ok c' -> chans_ok c'.
Proof.
  intros H E. destruct e as [[seg|i| | |] o]; cbn [step] in E.
  - apply on_recv_step in E. destruct E as [O1|O1 F|O1 F|k rest O1 F N|k rest h a c1 O1 F Hin Hc HA]; auto; [apply ch_close; exact H|].
    assert (G : chans_ok (with_buf c1 rest)).
    { change (chans_ok c1). inversion HA; subst; try apply ch_spawn; exact H. }
    destruct a; [exact G|apply ch_close; exact G].
  - injection E as <-. apply ch_task. exact H.
  - unfold on_write in E. destruct (sc_open c) eqn:OP; [|injection E as <-; exact H].
    destruct (sc_queue c) as [|[[kd b] f] r]; [injection E as <-; exact H|].
    assert (H1 : chans_ok (note (with_queue c r) (OOut kd b))) by exact H. assert (O1 : sc_open (note (with_queue c r) (OOut kd b)) = true) by exact OP.
    set (c1 := note _ _) in *. clearbody c1.
    destruct f; cbn [callback] in E; try (injection E as <-; exact H1).
    + destruct ac as [ac|]; destruct (code =? 0); try discriminate; try (injection E as <-; exact H1).
      apply bind_ok in E as (c2 & E2 & E). injection E as <-. unfold completeLogin in E2.
      apply ch_note. destruct (ch_resource c1 H1) as ((A & B & C & D) & K & L). assert (OC : sc_open (closeResource c1) = true) by exact O1. set (c3 := closeResource c1) in *. clearbody c3.
      cbv zeta in E2. destruct (_ <? 0) eqn:WN; [discriminate|]. injection E2 as <-. rename c3 into c2.
      unfold chans_ok, get_chan. cbn [with_chans with_sess sc_chans sc_sess sc_tasks sc_open se_win]. rewrite app_length. cbn [length].
      split; [|split; [|split]].
      * intros g Hg Ng. assert (X : g <> length (sc_chans c2)) by (intros X; apply Ng; rewrite X; reflexivity). rewrite app_nth1 by lia. apply K. lia.
      * intros t g Ht X. specialize (B t g Ht X). lia.
      * intros g Eg. injection Eg as <-. lia.
      * congruence.
    + destruct (code =? 0); injection E as <-; exact H1.
  - injection E as <-. unfold on_tick. destruct (negb _); [exact H|]. destruct (_ || _); [destruct (o_acc o); [apply ch_spawn|]; exact H|].
    destruct (se_stat (sc_sess c)); try exact H. assert (H1 : chans_ok (if o_acc o then spawn c JHeart else c)) by (destruct (o_acc o); [apply ch_spawn|]; exact H).
    destruct (o_dly o); [|exact H1]. destruct (o_acc2 o); [|exact H1]. apply ch_spawn. exact H1.
  - injection E as <-. apply ch_close. exact H.
Qed.
Lemma ch_run pr es c c' : chans_ok c -> run pr c es = Ok c' -> chans_ok c'.
Proof.
  revert c. induction es as [|e es IH]; intros c H E; cbn [run] in E; [congruence|].
  apply bind_ok in E as (c1 & E1 & E2). apply (IH c1); auto. apply (ch_step pr c e); auto.
Qed.
Lemma ch_opened now : chans_ok (opened now).
Proof. split; [intros g Hg; cbn in Hg; lia|]. split; [intros t g []|]. split; [discriminate|discriminate]. Qed.
Lemma closed_flight pr o i c : se_win (sc_sess c) = None -> chans_ok c -> count in_flight (sc_tasks (on_task pr o i c)) = count in_flight (sc_tasks c).
Proof.
  intros WN (A & SR & _). destruct (nth_error (sc_tasks c) i) as [[j q]|] eqn:N; [|unfold on_task; rewrite N; auto].
  assert (DEL : in_flight (j, q) = false -> count in_flight (del (sc_tasks c) i) = count in_flight (sc_tasks c)) by (intros P; rewrite (count_del _ _ _ _ N), P; lia).
  assert (UPD : forall q', in_flight (j, q') = in_flight (j, q) -> count in_flight (upd (sc_tasks c) i (j, q')) = count in_flight (sc_tasks c)) by (intros q' P; rewrite (count_upd _ _ _ _ _ N), P; lia).
  assert (FW : is_win j = true -> forall q', in_flight (j, q') = match q' with PStart | PWork | PReport _ | PRelease | PStuck => true | _ => false end).
  { intros W q'. unfold in_flight. cbn [fst snd]. rewrite W. reflexivity. }
  assert (FN : is_win j = false -> in_flight (j, q) = false) by (intros W; unfold in_flight; cbn [fst]; rewrite W; reflexivity).
  assert (CH : forall g, q = PSend g \/ q = PRecv g -> ch_closed (get_chan c g) = true).
  { intros g Q. apply A; [|congruence]. eapply SR; [eapply nth_error_In; eauto|cbn; auto]. }
  destruct (on_task_step pr o i c j q N) as [W F|Ej|it W I1 C1|g W Q|W Q S|W Q|k r it code a Ej Eq I1 C1 Ec Ek Ea|s' its w W Eq Nj SS It Wi|its a k Eq W It|g W Q|W Q].
  - apply DEL. auto.
  - apply DEL. subst j. reflexivity.
  - apply DEL. auto.
  - destruct Q as [[_ Q]| Q]; [congruence|]. unfold try_send. rewrite (CH g) by auto. apply DEL. rewrite FW by auto. subst q. reflexivity.
  - apply UPD. rewrite !FW by auto. destruct Q as [->| ->]; reflexivity.
  - apply UPD. rewrite !FW by auto. destruct Q as [[-> _]|[a ->]]; reflexivity.
  - assert (W : is_win j = true) by (subst j; reflexivity). apply (UPD (if code =? 0 then PReport a else PRelease)). rewrite !FW by auto. subst q. destruct (code =? 0); reflexivity.
  - apply (UPD PRelease). rewrite !FW by auto. subst q. reflexivity.
  - apply (UPD PRelease). rewrite !FW by auto. subst q. reflexivity.
  - destruct Q as [[_ Q]| Q]; [congruence|]. unfold try_recv. rewrite (CH g) by auto.
    assert (D : count in_flight (del (sc_tasks c) i) = count in_flight (sc_tasks c)) by (apply DEL; rewrite FW by auto; subst q; reflexivity).
    destruct (_ <? _); exact D.
  - reflexivity.
Qed.

(** C53, refuted by close: after the connection is closed, the goroutines that hold a packet
    (not merely blocked sending or receiving) are blocked forever: whatever happens, their
    number stays the same. *)
Theorem C53_refuted_close : forall pr now es c es' c', run pr (opened now) es = Ok c -> sc_open c = false -> run pr c es' = Ok c' ->
  count in_flight (sc_tasks c') = count in_flight (sc_tasks c).
Proof.
  intros pr now es c es' c' R O R'. pose proof (ch_run pr es _ _ (ch_opened now) R) as K. clear R. revert c O K R'.
  induction es' as [|e es' IH]; intros c O K R'; cbn [run] in R'; [congruence|]. apply bind_ok in R' as (c1 & E1 & E2).
  assert (K1 : chans_ok c1) by (apply (ch_step pr c e); auto).
  assert (O1 : sc_open c1 = false) by (apply (C50_silent pr c [e]); [exact O|cbn [run]; rewrite E1; reflexivity]).
  rewrite (IH c1 O1 K1 E2). destruct e as [[seg|i| | |] o]; cbn [step] in E1.
  - unfold on_recv in E1. rewrite O in E1. injection E1 as <-. reflexivity.
  - injection E1 as <-. apply closed_flight; [apply K; exact O|exact K].
  - unfold on_write in E1. rewrite O in E1. injection E1 as <-. reflexivity.
  - injection E1 as <-. unfold on_tick. rewrite O. reflexivity.
  - injection E1 as <-. unfold OnClose. rewrite O. reflexivity.
Qed.
(** Two active tests in hand, then the connection is closed and every goroutine runs as far as
    it can: one finishes (it was blocked sending), one is stuck for good. *)
Example C53_close_ex : view (run pr_one (opened 0) (es_one ++ map (fun e => (e, orc1)) [EClose; ETask 1; ETask 0; ETask 0; ETask 0])) = Some (false, [6], 1, 1).
Proof. vm_compute. reflexivity. Qed.
(** C53, refuted by re-login: with a window of one, two packets are in processing at once... *)
Definition es_relogin : list (event * orc) := login_events ++
  map (fun e => (e, orc1)) [ERecv (active_demo ++ [0]); ETask 0; ERecv login_demo; ETask 1; EWrite; ERecv (active_demo ++ [0]); ETask 1].
Theorem C53_refuted_relogin : exists c, run pr_one (opened 0) es_relogin = Ok c /\ sc_open c = true /\ window_size c < count processing (sc_tasks c).
Proof.
  destruct (run pr_one (opened 0) es_relogin) as [c| |] eqn:E; [|vm_compute in E; discriminate|vm_compute in E; discriminate].
  exists c. assert (X : match run pr_one (opened 0) es_relogin with Ok c => sc_open c && (window_size c <? count processing (sc_tasks c)) | _ => false end = true) by (vm_compute; reflexivity).
  rewrite E in X. apply andb_prop in X as [X1 X2]. split; [reflexivity|]. split; [exact X1|lia].
Qed.
(** ... and after both finish their work, the second waits for a slot nobody occupies. *)
Example C53_relogin_ex : view (run pr_one (opened 0) (es_relogin ++ map (fun e => (e, orc1)) [ETask 0; ETask 0; ETask 0; ETask 0; ETask 0])) = Some (true, [5], 2, 1).
Proof. vm_compute. reflexivity. Qed.
(** C53 as far as it holds: when every login takes effect while no packet is waiting for or in
    processing, the window is kept over any number of logins, and no slot is lost. Missing: the
    other re-logins (C53_refuted_relogin), and closing with packets in hand (C53_refuted_close). *)
Theorem C53_partial : forall pr now es c, run pr (opened now) es = Ok c -> sc_open c = true -> calm pr (opened now) es ->
  count processing (sc_tasks c) <= window_size c /\ slot_law pr c.
Proof.
  intros pr now es c R O K. split; [eapply calm_bound; eauto|]. apply win_slots. eapply win_run; eauto. apply win_opened.
Qed.
(** A calm run with two logins. *)
Definition es_calm : list (event * orc) := login_events ++
  map (fun e => (e, orc1)) [ERecv (active_demo ++ [0]); ETask 0; ETask 0; ETask 0; EWrite; ERecv login_demo; ETask 0; EWrite; ERecv (active_demo ++ [0]); ETask 0].
Fixpoint calmb (pr : params) (c : sconn) (es : list (event * orc)) : bool :=
  match es with
  | [] => true
  | e :: r => match step pr c e with
              | Ok c1 => (negb (logins (sc_log c) <? logins (sc_log c1)) || forallb (fun t => negb (windowed t)) (sc_tasks c)) && calmb pr c1 r
              | _ => true
              end
  end.
Lemma calmb_ok pr es : forall c, calmb pr c es = true -> calm pr c es.
Proof.
  induction es as [|e es IH]; intros c H; cbn [calm calmb] in *; [exact I|]. destruct (step pr c e) as [c1| |]; auto. apply andb_prop in H as [H1 H2].
  split; [|auto]. intros L t Ht. apply orb_prop in H1 as [H1|H1]; [lia|]. rewrite forallb_forall in H1. specialize (H1 t Ht). destruct (windowed t); [discriminate|reflexivity].
Qed.
Example C53_calm_ex : calm pr_one (opened 0) es_calm /\ view (run pr_one (opened 0) es_calm) = Some (true, [2], 2, 1).
Proof. split; [apply calmb_ok|]; vm_compute; reflexivity. Qed.
Print Assumptions C53_refuted_close.
Print Assumptions C53_refuted_relogin.
Print Assumptions C53_partial.

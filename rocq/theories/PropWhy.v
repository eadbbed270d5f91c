(** * PropWhy: property C101 (each login is answered once, and the answer says why it is refused). *)
From Verif Require Import Base UtilsModel SpecText SpecWire WireProofs SeqModel OptionsModel CmppModel CmppBuildProofs PropCmpp SgipModel PropSgip SmgpModel PropSmgp
  FrameModel SpecFrame PropFrame RecvModel SpecServer ServerModel ServerProofs PropServer PropWindow PropLogins PropTick PropAnswers PropEnd.

(** ** Specification *)
(** Name and version byte in a login packet. *)
Definition named (p : proto) (k : packet) : bytes :=
  match p with P_CMPP => TrimStr (firstn 6 (pk_body k)) | P_SGIP => TrimStr (firstn 16 (skipn 9 (pk_body k))) | P_SMGP => firstn 8 (pk_body k) end.
Definition version_in (p : proto) (k : packet) : Z := nth (match p with P_SMGP => 29 | _ => 22 end) (pk_body k) 0.
(** The upper half of a version byte. *)
Definition major (v : Z) : Z := Z.land v 240.
(** The status of the answer to a login, by the tables of the protocols: illegal source address, wrong
    digest (SGIP: illegal login), version too high, other error (too many connections). *)
Inductive verdict (p : proto) (md5 : bytes -> bytes) (find : bytes -> option authconf) (cnt : bytes -> Z) (k : packet) : Z -> Prop :=
| V_unknown : find (named p k) = None -> verdict p md5 find cnt k (match p with P_CMPP => 2 | P_SGIP => 1 | P_SMGP => 69 end)
| V_version a : find (named p k) = Some a -> p <> P_SGIP -> major (version_in p k) <> major (ac_Version a) ->
    verdict p md5 find cnt k (match p with P_CMPP => 4 | P_SGIP => 1 | P_SMGP => 22 end)
| V_secret a : find (named p k) = Some a -> (p <> P_SGIP -> major (version_in p k) = major (ac_Version a)) -> ~ genuine p md5 find k a ->
    verdict p md5 find cnt k (match p with P_CMPP => 3 | P_SGIP => 1 | P_SMGP => 21 end)
| V_many a : find (named p k) = Some a -> genuine p md5 find k a -> ac_MaxConns a <= cnt (ac_ClientId a) ->
    verdict p md5 find cnt k (match p with P_CMPP => 5 | P_SGIP => 3 | P_SMGP => 2 end)
| V_ok a : find (named p k) = Some a -> genuine p md5 find k a -> cnt (ac_ClientId a) < ac_MaxConns a -> verdict p md5 find cnt k 0.
(** The login packet [k] was received; an answer to it was written, waits in the write queue; a goroutine
    has it in hand. *)
Definition came (k : packet) (o : obs) : bool := match o with OGot k' => same_pk k k' | _ => false end.
Definition told (k : packet) (o : obs) : bool := match o with OOut (KLogin k' _) _ => same_pk k k' | _ => false end.
Definition due (k : packet) (it : item) : bool := match fst (fst it) with KLogin k' _ => same_pk k k' | _ => false end.
Definition held (k : packet) (t : task) : bool := match t with (JLogin k' _, _) => same_pk k k' | _ => false end.

(** ** The verdict *)
Lemma named_key p k l : decode_login p k = Ok l -> login_key l = named p k.
Proof.
  intros D. destruct p; cbn [decode_login] in D; apply bind_ok in D as (x & D & E); injection E as <-; cbn [login_key named].
  - unfold Connect_Decode in D. inv_bind D. injection D as <-. cbn [cn_sourceAddr].
    match goal with H : slice _ 0 6 = Ok _ |- _ => apply slice_val in H; change (Z.to_nat (6 - 0)) with 6%nat in H; change (skipn (Z.to_nat 0) (pk_body k)) with (pk_body k) in H; subst end. reflexivity.
  - unfold Bind_Decode in D. inv_bind D. injection D as <-. cbn [bd_name].
    match goal with H : slice _ 9 25 = Ok _ |- _ => apply slice_val in H; change (Z.to_nat (25 - 9)) with 16%nat in H; change (Z.to_nat 9) with 9%nat in H; subst end. reflexivity.
  - unfold Login_Decode in D. inv_bind D. injection D as <-. cbn [lg_clientID].
    match goal with H : slice _ 0 8 = Ok _ |- _ => apply slice_val in H; change (Z.to_nat (8 - 0)) with 8%nat in H; change (skipn (Z.to_nat 0) (pk_body k)) with (pk_body k) in H; subst end. reflexivity.
Qed.
Lemma check_verdict p md5 find k l : pk_cmd k = 1 -> bytes_ok (pk_body k) -> decode_login p k = Ok l ->
  let code0 := fst (login_check md5 l (find (login_key l))) in code0 <> 0 -> forall cnt, verdict p md5 find cnt k code0.
Proof.
  intros Hc Hb D code0 N cnt. pose proof (login_genuine p md5 find k l Hc Hb D) as G. pose proof (named_key p k l D) as K. fold code0 in G.
  destruct (find (login_key l)) as [a|] eqn:F.
  2:{ assert (X : code0 = match p with P_CMPP => 2 | P_SGIP => 1 | P_SMGP => 69 end).
      { unfold code0. clear - D. destruct p; cbn [decode_login] in D; apply bind_ok in D as (x & D & E); injection E as <-; reflexivity. }
      rewrite X. apply V_unknown. rewrite <- K. exact F. }
  assert (NG : ~ genuine p md5 find k a) by (intros X; apply N, G; exists a; auto). rewrite K in F.
  destruct p; cbn [decode_login] in D; apply bind_ok in D as (x & D & E); injection E as <-.
  - assert (V : cn_version x = version_in P_CMPP k /\ 0 <= cn_timestamp x < 2 ^ 32).
    { unfold Connect_Decode in D. inv_bind D. injection D as <-. cbn [cn_version cn_timestamp]. unfold version_in.
      match goal with H : at_ _ 22 = Ok _ |- _ => apply at_val in H; change (Z.to_nat 22) with 22%nat in H end.
      match goal with H : get_be _ _ 23 27 = Ok _ |- _ => pose proof (get_be_u32 _ _ _ _ Hb H eq_refl) as Ht end. auto. }
    destruct V as [V T]. unfold code0 in *. cbn [login_check] in *. destruct (Connect_Check md5 x (Some a)) as [z x'] eqn:E. destruct (C30_check md5 x (Some a) T z x' E) as (_ & C2 & C4 & C3 & CC & _). cbn [fst] in *.
    destruct CC as [Z0|[Z0|[Z0|Z0]]]; [congruence|apply C2 in Z0; discriminate Z0| |].
    + rewrite Z0. apply C3 in Z0 as (a' & E' & M & _). injection E' as <-. apply (V_secret P_CMPP md5 find cnt k a F); [intros _; unfold major; rewrite <- V; exact M|exact NG].
    + rewrite Z0. apply C4 in Z0 as (a' & E' & M). injection E' as <-. apply (V_version P_CMPP md5 find cnt k a F); [discriminate|unfold major; rewrite <- V; exact M].
  - assert (X : code0 = 1) by (unfold code0 in *; cbn [login_check fst] in *; unfold Bind_Check in *; destruct (beqb _ _ && _); [congruence|reflexivity]).
    rewrite X. apply (V_secret P_SGIP md5 find cnt k a F); [congruence|exact NG].
  - assert (V : lg_version x = version_in P_SMGP k /\ 0 <= lg_timestamp x < 2 ^ 32).
    { unfold Login_Decode in D. inv_bind D. injection D as <-. cbn [lg_version lg_timestamp]. unfold version_in.
      match goal with H : at_ _ 29 = Ok _ |- _ => apply at_val in H; change (Z.to_nat 29) with 29%nat in H end.
      match goal with H : get_be _ _ 25 29 = Ok _ |- _ => pose proof (get_be_u32 _ _ _ _ Hb H eq_refl) as Ht end. auto. }
    destruct V as [V T]. unfold code0 in *. cbn [login_check] in *. destruct (Login_Check md5 x (Some a)) as [z x'] eqn:E. destruct (C42_check md5 x (Some a) T z x' E) as (_ & C2 & C4 & C3 & CC & _). cbn [fst] in *.
    destruct CC as [Z0|[Z0|[Z0|Z0]]]; [congruence|apply C2 in Z0; discriminate Z0| |].
    + rewrite Z0. apply C4 in Z0 as (a' & E' & M). injection E' as <-. apply (V_version P_SMGP md5 find cnt k a F); [discriminate|unfold major; rewrite <- V; exact M].
    + rewrite Z0. apply C3 in Z0 as (a' & E' & M & _). injection E' as <-. apply (V_secret P_SMGP md5 find cnt k a F); [intros _; unfold major; rewrite <- V; exact M|exact NG].
Qed.
Lemma verdict_range p md5 find cnt k code : verdict p md5 find cnt k code -> 0 <= code < 256.
Proof. intros V. destruct V; destruct p; lia. Qed.

(** ** Answers of a run *)
Section Why.
Variable pr : params.
Variable A : orc -> Prop.
Definition why (k : packet) (code : Z) (b : bytes) : Prop :=
  login_reply (pr_p pr) k code b /\ exists o, A o /\ verdict (pr_p pr) (pr_md5 pr) (pr_find pr (o_gen o)) (o_cnt o) k code.
Definition job_why (j : job) : Prop := match j with JLogin k x => pk_cmd k = 1 /\ bytes_ok (pk_body k) /\ decode_login (pr_p pr) k = Ok x | _ => True end.
Definition item_why (it : item) : Prop := match fst (fst it) with KLogin k code => why k code (snd (fst it)) | _ => True end.
Definition obs_why (o : obs) : Prop := match o with OOut (KLogin k code) b => why k code b | _ => True end.
Definition whyc (c : sconn) : Prop :=
  bytes_ok (sc_buf c) /\ (forall o, In o (sc_log c) -> obs_why o) /\
  (forall t, In t (sc_tasks c) -> job_why (fst t)) /\ (forall it, In it (sc_queue c) -> item_why it) /\ (sc_open c = true -> se_conn (sc_sess c) = true).

Lemma why_note c o : whyc c -> obs_why o -> whyc (note c o).
Proof. intros (B & L & H) N. split; [exact B|]. split; [|exact H]. intros x X. cbn [note sc_log] in X. apply in_app_or in X as [X|[<-|[]]]; auto. Qed.
Lemma why_spawn c j : whyc c -> job_why j -> whyc (spawn c j).
Proof.
  intros (B & L & T & H) N. split; [exact B|]. split; [exact L|]. split; [|exact H]. intros t X. cbn [spawn with_tasks sc_tasks] in X. apply in_app_or in X as [X|[<-|[]]]; auto.
Qed.
Lemma why_close c : whyc c -> whyc (OnClose c).
Proof.
  intros (B & L & T & Q & H). unfold OnClose. destruct (negb _) eqn:O; [split; auto|]. split; [exact B|]. split.
  - intros o X. cbn [note sc_log closeResource with_chans with_sess] in X. apply in_app_or in X as [X|[<-|[]]]; [auto|exact Logic.I].
  - split; [exact T|]. split; [intros it []|]. intros X. discriminate X.
Qed.
Lemma login_why o k l c c1 : A o -> job_why (JLogin k l) -> handle_login pr o k l c = Ok c1 ->
  exists code b f, why k code b /\ c1 = with_queue c (sc_queue c ++ [(KLogin k code, b, f)]).
Proof.
  intros Ho (B & C & D) H. unfold handle_login in H. destruct (login_check _ _ _) as [code0 l1] eqn:LC. set (code := if code0 =? 0 then _ else code0) in H.
  apply bind_ok in H as (b & LA & H). apply AsyncWrite_ok in H as [_ ->]. exists code, b. eexists. split; [|reflexivity].
  assert (F : fst (login_check (pr_md5 pr) l (pr_find pr (o_gen o) (login_key l))) = code0) by (rewrite LC; reflexivity).
  assert (V : verdict (pr_p pr) (pr_md5 pr) (pr_find pr (o_gen o)) (o_cnt o) k code).
  { unfold code. destruct (code0 =? 0) eqn:Z0.
    - apply Z.eqb_eq in Z0. pose proof (proj1 (login_genuine (pr_p pr) (pr_md5 pr) (pr_find pr (o_gen o)) k l B C D)) as G. rewrite F in G. destruct (G Z0) as (a & Fa & Ga).
      pose proof (named_key _ _ _ D) as K. pose proof Fa as Fn. rewrite K in Fn. rewrite Fa. destruct (ac_MaxConns a <=? o_cnt o (ac_ClientId a)) eqn:M.
      + apply (V_many _ _ _ _ _ a Fn Ga). lia.
      + rewrite Z0. apply (V_ok _ _ _ _ _ a Fn Ga). lia.
    - rewrite <- F. apply check_verdict; auto. rewrite F. lia. }
  split; [|exists o; auto].
  assert (R : 0 <= code < 256) by exact (verdict_range _ _ _ _ _ _ V).
  destruct (login_bytes (pr_p pr) (pr_md5 pr) k l (pr_find pr (o_gen o) (login_key l)) code D C R) as (b' & E & L). rewrite LC in E. cbn [snd] in E. congruence.
Qed.
Lemma login_runs o k l c : job_why (JLogin k l) -> se_conn (sc_sess c) = true -> exists c1, handle_login pr o k l c = Ok c1.
Proof.
  intros (B & C & D) S. unfold handle_login. set (cli := pr_find pr (o_gen o) (login_key l)).
  assert (R0 : 0 <= fst (login_check (pr_md5 pr) l cli) < 256).
  { destruct (Z.eq_dec (fst (login_check (pr_md5 pr) l cli)) 0) as [->|N]; [lia|].
    exact (verdict_range _ _ _ _ _ _ (check_verdict _ (pr_md5 pr) (pr_find pr (o_gen o)) k l B C D N (fun _ => 0))). }
  destruct (login_check (pr_md5 pr) l cli) as [code0 l1] eqn:LC. cbn [fst] in R0. set (code := if code0 =? 0 then _ else code0).
  assert (R : 0 <= code < 256).
  { unfold code. destruct (code0 =? 0); [|exact R0]. destruct cli; [|exact R0]. destruct (_ <=? _); [|exact R0]. destruct (pr_p pr); cbn; lia. }
  destruct (login_bytes (pr_p pr) (pr_md5 pr) k l cli code D C R) as (b' & E & _). rewrite LC in E. cbn [snd] in E. rewrite E. cbn [bind]. unfold AsyncWrite. rewrite S. eauto.
Qed.
Lemma why_task o i c : A o -> whyc c -> whyc (on_task pr o i c).
Proof.
  intros Ho H. destruct (nth_error (sc_tasks c) i) as [[j q]|] eqn:N; [|unfold on_task; rewrite N; exact H].
  assert (J : job_why j) by (destruct H as (_ & _ & H & _); apply (H (j, q)); eapply nth_error_In; eauto).
  assert (G : forall s w ch ts its, se_conn s = se_conn (sc_sess c) -> (forall t, In t ts -> In t (sc_tasks c) \/ fst t = j) -> (forall it, In it its -> item_why it) ->
    whyc (SConn (sc_buf c) (sc_open c) s ch ts (sc_queue c ++ its) w (sc_log c))).
  { intros s w ch ts its S1 T1 I1. destruct H as (B & L & T0 & Q & O). split; [exact B|]. split; [exact L|]. split.
    - intros t Ht. destruct (T1 t Ht) as [X| ->]; auto.
    - split; [|cbn [sc_open sc_sess]; rewrite S1; exact O]. intros it Hi. cbn [sc_queue] in Hi. apply in_app_or in Hi as [X|X]; auto. }
  assert (U : forall q' t, In t (upd (sc_tasks c) i (j, q')) -> In t (sc_tasks c) \/ fst t = j) by (intros q' t Ht; apply (in_upd _ _ _ _ _ N) in Ht as [->|Ht]; auto).
  assert (V : forall t, In t (del (sc_tasks c) i) -> In t (sc_tasks c) \/ fst t = j) by (intros t Ht; apply in_del in Ht; auto).
  assert (G0 : forall s w ch ts, se_conn s = se_conn (sc_sess c) -> (forall t, In t ts -> In t (sc_tasks c) \/ fst t = j) -> whyc (SConn (sc_buf c) (sc_open c) s ch ts (sc_queue c) w (sc_log c))).
  { intros s w ch ts S1 T1. rewrite <- (app_nil_r (sc_queue c)). apply G; auto. intros it []. }
  assert (LJ : (exists k l, j = JLogin k l) \/ forall k l, j <> JLogin k l) by (destruct j; [left; eauto|right; discriminate..]).
  destruct LJ as [(k & l & ->)|NJ].
  { unfold on_task. rewrite N. cbn [plain_job]. destruct (handle_login pr o k l c) as [c1| |] eqn:HL; try (apply G0; auto).
    destruct (login_why _ _ _ _ _ Ho J HL) as (code & b & f & Y & ->). apply G; auto. intros it [<-|[]]. exact Y. }
  assert (NI : forall it, item_of pr o j it -> item_why it) by (intros it X; destruct X; try exact Logic.I; exfalso; eapply NJ; reflexivity).
  destruct (on_task_step pr o i c j q N) as [W F|Ej|it W I1 C1|g W Q|W Q S|W Q|k r it code a Ej Eq I1 C1 Ec Ek Ea|s' its w W Eq Nj SS It Wi|its a k Eq W It|g W Q|W Q];
    try (apply G0; solve [reflexivity|apply V|apply U]).
  - apply G; [reflexivity|apply V|]. intros it' [<-|[]]. auto.
  - unfold try_send. destruct (ch_closed _); [apply G0; [reflexivity|apply V]|]. destruct (_ <? _); apply G0; try reflexivity; apply U.
  - apply G; [reflexivity|apply U|]. intros it' [<-|[]]. auto.
  - apply G; [apply SS|apply U|]. intros it' Hi. destruct It as [->|(it0 & -> & X & _)]; [destruct Hi|destruct Hi as [<-|[]]; auto].
  - apply G; [reflexivity|apply U|]. intros it' Hi. destruct It as [->|(b & -> & X & _)]; [destruct Hi|destruct Hi as [<-|[]]; auto].
  - unfold try_recv. destruct (_ <? _); [apply G0; [reflexivity|apply V]|]. destruct (ch_closed _); apply G0; try reflexivity; solve [apply V|apply U].
  - exact H.
Qed.
Lemma why_write o c c' : whyc c -> on_write o c = Ok c' -> whyc c'.
Proof.
  intros H E. unfold on_write in E. destruct (sc_open c) eqn:O; [|injection E as <-; exact H].
  destruct (sc_queue c) as [|[[kd b] f] r] eqn:Q; [injection E as <-; exact H|].
  assert (K : item_why (kd, b, f)) by (destruct H as (_ & _ & _ & H & _); apply H; rewrite Q; left; reflexivity).
  set (c1 := note (with_queue c r) (OOut kd b)) in E.
  assert (H1 : whyc c1).
  { unfold c1. apply why_note; [|destruct kd; exact Logic.I || exact K]. destruct H as (B & L & T0 & Q0 & S0). split; [exact B|]. split; [exact L|]. split; [exact T0|].
    split; [|exact S0]. intros it X. apply Q0. rewrite Q. right. exact X. }
  clearbody c1. assert (SS : forall s ch, se_conn s = se_conn (sc_sess c1) -> whyc (SConn (sc_buf c1) (sc_open c1) s ch (sc_tasks c1) (sc_queue c1) (sc_wish c1) (sc_log c1))).
  { intros s ch S1. destruct H1 as (B & L & T0 & Q0 & S0). split; [exact B|]. split; [exact L|]. split; [exact T0|]. split; [exact Q0|]. cbn [sc_open sc_sess]. rewrite S1. exact S0. }
  destruct f; cbn [callback] in E; try (injection E as <-; exact H1).
  - destruct ac as [ac|].
    + destruct (code =? 0) eqn:C0; [|injection E as <-; apply SS; reflexivity].
      apply bind_ok in E as (c2 & Ec & E). injection E as <-. unfold completeLogin in Ec. destruct (_ <? 0); [discriminate|]. injection Ec as <-.
      apply why_note; [|exact Logic.I]. apply SS. reflexivity.
    + destruct (code =? 0); [discriminate|]. injection E as <-. apply SS. reflexivity.
  - destruct (code =? 0); injection E as <-; [apply SS; reflexivity|exact H1].
Qed.
Lemma why_tick o c : whyc c -> whyc (on_tick pr o c).
Proof.
  intros H. unfold on_tick. destruct (negb _); [exact H|]. destruct (_ || _); [destruct (o_acc o); [apply why_spawn; [exact H|exact Logic.I]|exact H]|].
  destruct (se_stat (sc_sess c)); auto. assert (H1 : whyc (if o_acc o then spawn c JHeart else c)) by (destruct (o_acc o); [apply why_spawn; [exact H|exact Logic.I]|exact H]).
  destruct (o_dly o); [|exact H1]. destruct (o_acc2 o); [|exact H1]. apply why_spawn; [exact H1|exact Logic.I].
Qed.
Lemma why_buf c b : whyc c -> bytes_ok b -> whyc (with_buf c b).
Proof. intros (_ & H) B. split; [exact B|exact H]. Qed.
Lemma why_recv o seg c c' : bytes_ok seg -> whyc c -> on_recv pr o seg c = Ok c' -> whyc c'.
Proof.
  intros Hs H E. apply on_recv_step in E. assert (B : bytes_ok (sc_buf c ++ seg)) by (apply Forall_app; split; [apply H|exact Hs]).
  destruct E as [O|O F|O F|k rest O F N|k rest h a c1 O F Hin Hc HA]; auto.
  - apply why_buf; auto.
  - apply why_close, why_buf; auto.
  - apply why_buf; auto. eapply dch_bytes; eauto.
  - destruct (dch_bytes _ _ _ _ _ B F) as [Bk Br]. assert (X : whyc c1); [|destruct a; [apply why_buf; auto|apply why_close, why_buf; auto]].
    assert (H0 : whyc (note c (OGot k))) by (apply why_note; [exact H|exact Logic.I]).
    assert (H2 : forall x, whyc (note (note c (OGot k)) (OServe k x))) by (intros x; apply why_note; [exact H0|exact Logic.I]).
    destruct HA as [|l E1 E2 E3|r E1 X E2 E3 E4 E5|r E1 X E2 E3 E4 E5|r E1 X E2 E3 E4 E5|j E1 E2 X E3 E4 E5 E6 E7]; auto.
    + apply why_spawn; [exact H0|]. split; [|auto]. rewrite <- Hc, E1. destruct (pr_p pr); reflexivity.
    + apply why_spawn; [apply H2|exact Logic.I].
    + apply why_spawn; [apply H2|exact Logic.I].
    + apply why_spawn; [apply H2|]. destruct j; try discriminate E5; exact Logic.I.
Qed.
Lemma why_step c e c' : A (snd e) -> match fst e with ERecv seg => bytes_ok seg | _ => True end -> whyc c -> step pr c e = Ok c' -> whyc c'.
Proof.
  intros Ho Hs H E1. destruct e as [[seg|i| | |] o]; cbn [step fst snd] in *.
  - eapply why_recv; eauto.
  - injection E1 as <-. apply why_task; auto.
  - eapply why_write; eauto.
  - injection E1 as <-. apply why_tick. exact H.
  - injection E1 as <-. apply why_close. exact H.
Qed.

(** ** Counting *)
Definition owed (k : packet) (c : sconn) : Z :=
  count (came k) (sc_log c) - count (told k) (sc_log c) - count (due k) (sc_queue c) - count (held k) (sc_tasks c).
Lemma owed_note k c o : owed k (note c o) = owed k c + (if came k o then 1 else 0) - (if told k o then 1 else 0).
Proof. unfold owed. cbn [note sc_log sc_queue sc_tasks]. rewrite !count_app, !count_one. lia. Qed.
Lemma owed_spawn k c j : owed k (spawn c j) = owed k c - (if held k (j, PStart) then 1 else 0).
Proof. unfold owed. cbn [spawn with_tasks sc_log sc_queue sc_tasks]. rewrite count_app, count_one. lia. Qed.
Lemma owed_close k c : owed k c <= owed k (OnClose c) /\ sc_open (OnClose c) = false.
Proof.
  unfold OnClose. destruct (sc_open c) eqn:O; cbn [negb]; [|split; [lia|exact O]]. split; [|reflexivity]. rewrite owed_note. cbn [came told].
  unfold owed. cbn [sc_log sc_queue sc_tasks closeResource with_chans with_sess]. rewrite count_nil. pose proof (count_nonneg (due k) (sc_queue c)). lia.
Qed.
Lemma owed_task o i c k : whyc c -> owed k c <= owed k (on_task pr o i c) /\ (sc_open c = true -> owed k (on_task pr o i c) = owed k c).
Proof.
  intros H. destruct (nth_error (sc_tasks c) i) as [[j q]|] eqn:N; [|unfold on_task; rewrite N; split; [lia|auto]].
  assert (J : job_why j) by (destruct H as (_ & _ & H & _); apply (H (j, q)); eapply nth_error_In; eauto).
  assert (G : forall s w ch ts its, count (due k) its = 0 -> count (held k) ts = count (held k) (sc_tasks c) ->
    owed k (SConn (sc_buf c) (sc_open c) s ch ts (sc_queue c ++ its) w (sc_log c)) = owed k c).
  { intros s w ch ts its X Y. unfold owed. cbn [sc_log sc_queue sc_tasks]. rewrite count_app, X, Y. lia. }
  assert (G0 : forall s w ch ts, count (held k) ts = count (held k) (sc_tasks c) -> owed k (SConn (sc_buf c) (sc_open c) s ch ts (sc_queue c) w (sc_log c)) = owed k c).
  { intros s w ch ts Y. unfold owed. cbn [sc_log sc_queue sc_tasks]. rewrite Y. reflexivity. }
  assert (LJ : (exists k l, j = JLogin k l) \/ forall k l, j <> JLogin k l) by (destruct j; [left; eauto|right; discriminate..]).
  destruct LJ as [(k0 & l & ->)|NJ].
  { unfold on_task. rewrite N. cbn [plain_job].
    assert (D : owed k (with_tasks c (del (sc_tasks c) i)) = owed k c + (if same_pk k k0 then 1 else 0)).
    { unfold owed. cbn [with_tasks sc_log sc_queue sc_tasks]. rewrite (count_del _ _ _ _ N). cbn [held]. lia. }
    destruct (handle_login pr o k0 l c) as [c1|e|] eqn:HL.
    - unfold handle_login in HL. destruct (login_check _ _ _) as [code0 l1]. apply bind_ok in HL as (b & _ & HL). apply AsyncWrite_ok in HL as [_ ->].
      match goal with |- _ <= ?x /\ (_ -> ?x = _) => assert (E : x = owed k c); [|rewrite E; split; [lia|auto]] end.
      unfold owed. cbn [with_tasks with_queue sc_log sc_queue sc_tasks]. rewrite count_app, count_one, (count_del _ _ _ _ N). cbn [held due fst]. lia.
    - rewrite D. split; [destruct (same_pk k k0); lia|]. intros O. destruct H as (_ & _ & _ & _ & H). destruct (login_runs o k0 l c J (H O)) as [c1 X]. congruence.
    - rewrite D. split; [destruct (same_pk k k0); lia|]. intros O. destruct H as (_ & _ & _ & _ & H). destruct (login_runs o k0 l c J (H O)) as [c1 X]. congruence. }
  assert (HJ : forall q', held k (j, q') = false) by (intros q'; destruct j; try reflexivity; exfalso; eapply NJ; reflexivity).
  assert (U : forall q', count (held k) (upd (sc_tasks c) i (j, q')) = count (held k) (sc_tasks c)) by (intros q'; rewrite (count_upd _ _ _ _ _ N), !HJ; lia).
  assert (V : count (held k) (del (sc_tasks c) i) = count (held k) (sc_tasks c)) by (rewrite (count_del _ _ _ _ N), !HJ; lia).
  assert (NI : forall it, item_of pr o j it -> count (due k) [it] = 0) by (intros it X; rewrite count_one; destruct X; try reflexivity; exfalso; eapply NJ; reflexivity).
  match goal with |- _ <= ?x /\ (_ -> ?x = _) => assert (E : x = owed k c); [|rewrite E; split; [lia|auto]] end.
  destruct (on_task_step pr o i c j q N) as [W F|Ej|it W I1 C1|g W Q|W Q S|W Q|k1 r it code a Ej Eq I1 C1 Ec Ek Ea|s' its w W Eq Nj SS It Wi|its a k1 Eq W It|g W Q|W Q];
    try (apply G0; solve [apply V|apply U]).
  - apply G; auto.
  - unfold try_send. destruct (ch_closed _); [apply G0; apply V|]. destruct (_ <? _); apply G0; apply U.
  - apply G; auto.
  - apply G; auto. destruct It as [->|(it0 & -> & X & _)]; auto.
  - apply G; auto. destruct It as [->|(b & -> & X & _)]; auto.
  - unfold try_recv. destruct (_ <? _); [apply G0; apply V|]. destruct (ch_closed _); apply G0; solve [apply V|apply U].
  - reflexivity.
Qed.
Lemma owed_step c e c' k : whyc c -> step pr c e = Ok c' -> owed k c <= owed k c' /\ (pk_cmd k = 1 -> sc_open c' = true -> owed k c' = owed k c).
Proof.
  intros H E. destruct e as [[seg|i| | |] o]; cbn [step fst snd] in *.
  - apply on_recv_step in E. destruct E as [O1|O1 F|O1 F|k0 rest O1 F N|k0 rest h a c1 O1 F Hin Hc HA]; try (split; [reflexivity|intros; reflexivity]).
    + destruct (owed_close k (with_buf c (sc_buf c ++ seg))) as [X Y]. split; [exact X|]. intros _ Z. congruence.
    + assert (G : owed k c <= owed k c1 /\ (pk_cmd k = 1 -> a = ANone -> owed k c1 = owed k c)).
      { assert (NL : h <> HLogin -> pk_cmd k = 1 -> same_pk k k0 = false).
        { intros NH C1. destruct (same_pk k k0) eqn:X; [|reflexivity]. exfalso. apply same_pk_iff in X. subst k0. rewrite C1 in Hc.
          destruct h; try congruence; destruct (pr_p pr); cbn in Hc; discriminate. }
        inversion HA; subst; rewrite ?owed_spawn, ?owed_note; cbn [came told held].
        - split; [destruct (same_pk k k0); lia|]. intros. discriminate.
        - destruct (same_pk k k0); split; intros; lia.
        - split; [destruct (same_pk k k0); lia|]. intros C1 _. rewrite NL; [lia|discriminate|exact C1].
        - split; [destruct (same_pk k k0); lia|]. intros C1 _. rewrite NL; [lia|discriminate|exact C1].
        - split; [destruct (same_pk k k0); lia|]. intros C1 _. rewrite NL; [lia|discriminate|exact C1].
        - assert (X : match j with JLogin k' _ => same_pk k k' | _ => false end = false) by (destruct j; try discriminate; reflexivity). rewrite X.
          split; [destruct (same_pk k k0); lia|]. intros C1 _. rewrite NL; [lia|assumption|exact C1]. }
      destruct G as [G1 G2]. destruct a; cbn [closing].
      * split; [exact G1|]. intros C1 _. apply G2; auto.
      * destruct (owed_close k (with_buf c1 rest)) as [X Y]. change (owed k (with_buf c1 rest)) with (owed k c1) in X. split; [lia|]. intros _ Z. congruence.
  - injection E as <-. destruct (owed_task o i c k H) as [X Y]. split; [exact X|]. intros _ O. apply Y.
    rewrite PropTick.task_open in O. exact O.
  - assert (X : owed k c' = owed k c); [|split; [lia|auto]].
    unfold on_write in E. destruct (sc_open c); [|injection E as <-; reflexivity].
    destruct (sc_queue c) as [|[[kd b] f] r] eqn:Q; [injection E as <-; reflexivity|].
    assert (X : owed k (note (with_queue c r) (OOut kd b)) = owed k c).
    { rewrite owed_note. unfold owed. cbn [with_queue sc_log sc_queue sc_tasks came]. rewrite Q, count_cons. unfold due at 2. cbn [fst].
      replace (told k (OOut kd b)) with (match kd with KLogin k' _ => same_pk k k' | _ => false end) by (destruct kd; reflexivity). lia. }
    rewrite <- X. set (c1 := note _ _) in *. clearbody c1.
    destruct f; cbn [callback] in E; try (injection E as <-; reflexivity).
    + destruct ac as [ac|]; destruct (code =? 0); try discriminate; try (injection E as <-; reflexivity).
      apply bind_ok in E as (c2 & E2 & E). injection E as <-. unfold completeLogin in E2. destruct (_ <? 0) eqn:WN; [discriminate|]. injection E2 as <-.
      rewrite owed_note. cbn [came told]. unfold owed. cbn [with_chans with_sess closeResource sc_log sc_queue sc_tasks]. lia.
    + destruct (code =? 0); injection E as <-; reflexivity.
  - injection E as <-. assert (X : owed k (on_tick pr o c) = owed k c); [|split; [lia|auto]].
    unfold on_tick. destruct (negb _); [reflexivity|]. destruct (_ || _); [destruct (o_acc o); [rewrite owed_spawn; cbn; lia|reflexivity]|].
    destruct (se_stat (sc_sess c)); try reflexivity. assert (H1 : owed k (if o_acc o then spawn c JHeart else c) = owed k c) by (destruct (o_acc o); [rewrite owed_spawn; cbn; lia|reflexivity]).
    destruct (o_dly o); [|exact H1]. destruct (o_acc2 o); [|exact H1]. rewrite owed_spawn. cbn [held]. lia.
  - injection E as <-. destruct (owed_close k c) as [X Y]. split; [exact X|]. intros _ Z. congruence.
Qed.
Lemma why_run es : forall c c' k, (forall e, In e es -> A (snd e)) -> segs_ok es -> whyc c -> run pr c es = Ok c' ->
  whyc c' /\ owed k c <= owed k c' /\ (pk_cmd k = 1 -> sc_open c' = true -> owed k c' = owed k c).
Proof.
  induction es as [|e es IH]; intros c c' k Ha Hs H E; cbn [run] in E.
  - injection E as <-. split; [exact H|]. split; [lia|auto].
  - apply bind_ok in E as (c1 & E1 & E2). inversion Hs as [|? ? Hs1 Hs2]; subst.
    assert (H1 : whyc c1) by (eapply why_step; eauto; apply Ha; left; reflexivity). destruct (owed_step _ _ _ k H E1) as [A1 B1].
    destruct (IH c1 c' k (fun e He => Ha e (or_intror He)) Hs2 H1 E2) as (H2 & A2 & B2). split; [exact H2|]. split; [lia|].
    intros K O. rewrite B2, B1; auto. eapply open_back_run; eauto.
Qed.
End Why.

(** Every answer to a login echoes its sequence number and carries the status of the first thing wrong
    with it, judged by one state of the accounts and one count of the logged-in connections: unknown
    name, other major version, wrong secret, too many connections; and 0 exactly if nothing is. *)
Theorem C101_why : forall pr now es c k code b, segs_ok es -> run pr (opened now) es = Ok c -> In (OOut (KLogin k code) b) (sc_log c) ->
  login_reply (pr_p pr) k code b /\
  exists e, In e es /\ verdict (pr_p pr) (pr_md5 pr) (pr_find pr (o_gen (snd e))) (o_cnt (snd e)) k code.
Proof.
  intros pr now es c k code b Hs E L.
  destruct (why_run pr (fun o => exists e, In e es /\ o = snd e) es (opened now) c k) as ((_ & X & _) & _); auto.
  - intros e He. exists e. auto.
  - split; [constructor|]. split; [intros ? []|]. split; [intros ? []|]. split; [intros ? []|reflexivity].
  - destruct (X _ L) as (R1 & o & (e & He & ->) & V). split; [exact R1|]. exists e. auto.
Qed.
(** No login is answered twice; and while the connection is open each one received has been answered,
    or its answer waits to be written, or it waits to be checked. *)
Theorem C101_once : forall pr now es c k, segs_ok es -> run pr (opened now) es = Ok c ->
  count (told k) (sc_log c) + count (due k) (sc_queue c) + count (held k) (sc_tasks c) <= count (came k) (sc_log c) /\
  (pk_cmd k = 1 -> sc_open c = true -> count (told k) (sc_log c) + count (due k) (sc_queue c) + count (held k) (sc_tasks c) = count (came k) (sc_log c)).
Proof.
  intros pr now es c k Hs E. destruct (why_run pr (fun _ => True) es (opened now) c k) as (_ & X & Y); auto.
  - split; [constructor|]. split; [intros ? []|]. split; [intros ? []|]. split; [intros ? []|reflexivity].
  - change (owed k (opened now)) with 0 in *. unfold owed in *. split; [lia|]. intros K O. specialize (Y K O). lia.
Qed.
Print Assumptions C101_why.
Print Assumptions C101_once.

(** The verdict is one: two answers to the same packet under the same accounts and counts agree. *)
Theorem C101_one_verdict : forall p md5 find cnt k x y, verdict p md5 find cnt k x -> verdict p md5 find cnt k y -> x = y.
Proof.
  assert (NV : forall p md5 find k a, genuine p md5 find k a -> p <> P_SGIP -> major (version_in p k) = major (ac_Version a)).
  { intros p md5 find k a (_ & G) N. destruct p; [|congruence|]; apply G. }
  intros p md5 find cnt k x y V W.
  destruct V as [F|a F N M|a F M NG|a F G L|a F G L]; destruct W as [F'|a' F' N' M'|a' F' M' NG'|a' F' G' L'|a' F' G' L']; try congruence;
    assert (a' = a) by congruence; subst a'; exfalso; solve [auto|apply M; eauto|apply M'; eauto|lia].
Qed.
(** A login whose major version is below that of its account is told that its version is too high. *)
Theorem C101_refuted_low : forall pr now es c k code b, segs_ok es -> run pr (opened now) es = Ok c -> In (OOut (KLogin k code) b) (sc_log c) -> pr_p pr <> P_SGIP ->
  (forall e, In e es -> exists a, pr_find pr (o_gen (snd e)) (named (pr_p pr) k) = Some a /\ major (version_in (pr_p pr) k) < major (ac_Version a)) ->
  code = match pr_p pr with P_CMPP => 4 | P_SGIP => 1 | P_SMGP => 22 end.
Proof.
  intros pr now es c k code b Hs E L N H. destruct (C101_why _ _ _ _ _ _ _ Hs E L) as (_ & e & He & V). destruct (H e He) as (a & F & M).
  apply (C101_one_verdict _ _ _ _ _ _ _ V). apply (V_version _ _ _ _ _ a F N). lia.
Qed.
Print Assumptions C101_one_verdict.
Print Assumptions C101_refuted_low.

(** ** Cases *)
(** The account has the secret s3, version 3.0 and one connection. The answers to a login with the given
    name, secret and version while [cnt] connections are logged in. *)
Definition wy_login (p : proto) (id secret : bytes) (v : Z) : bytes :=
  match login_packet end_md5 p (AuthConf [] id id secret v 1 [49;48] [] 1 2 0 [] [] [] [] [] 0 1 16 100) 7 (1, 2, 3) [49;49;49;54;48;48;48;48;48;48] 1116000000 with Ok b => b | _ => [] end.
Definition wy_es (p : proto) (cnt : Z) (id secret : bytes) (v : Z) : list (event * orc) :=
  [(ERecv (wy_login p id secret v), end_orc cnt); (ETask 0, end_orc cnt); (EWrite, end_orc cnt)].
Definition wy_try (p : proto) (cnt : Z) (id secret : bytes) (v : Z) : list Z :=
  match run (end_pr p) (opened 0) (wy_es p cnt id secret v) with Ok c => replies c | _ => [] end.
Definition wy_other (p : proto) : bytes := 57 :: tl (end_id p).
Example C101_case :
  map (fun p => (wy_try p 0 (wy_other p) [115;51] 48, wy_try p 0 (end_id p) [115;51] 64, wy_try p 0 (end_id p) [115;52] 48, wy_try p 1 (end_id p) [115;51] 48, wy_try p 0 (end_id p) [115;51] 48)) [P_CMPP; P_SGIP; P_SMGP] =
  [([2], [4], [3], [5], [0]); ([1], [0], [1], [3], [0]); ([69], [22], [21], [2], [0])].
Proof. vm_compute. reflexivity. Qed.
(** Version 2.0 is refused as too high. *)
Example C101_low_case : wy_try P_CMPP 0 (end_id P_CMPP) [115;51] 32 = [4] /\ wy_try P_SMGP 0 (end_id P_SMGP) [115;51] 19 = [22].
Proof. vm_compute. auto. Qed.
(** Two logins at once, the second answered first: each has its answer, in the end nothing is owed. *)
Definition wy_two (p : proto) : list (event * orc) :=
  [(ERecv (wy_login p (end_id p) [115;52] 48), end_orc 0); (ERecv (wy_login p (end_id p) [115;51] 48), end_orc 0); (ETask 1, end_orc 0); (ETask 0, end_orc 0); (EWrite, end_orc 0); (EWrite, end_orc 0)].
Definition wy_keys (c : sconn) : list packet := flat_map (fun o => match o with OGot k => [k] | _ => [] end) (sc_log c).
Example C101_once_case : forall p, match run (end_pr p) (opened 0) (wy_two p) with
  | Ok c => sc_open c = true /\ zlen (wy_keys c) = 2 /\ Forall (fun k => pk_cmd k = 1 /\ count (came k) (sc_log c) = 1 /\ count (told k) (sc_log c) = 1) (wy_keys c)
  | _ => False end.
Proof. intros p. destruct p; vm_compute; repeat constructor. Qed.

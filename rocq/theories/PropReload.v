(** * PropReload: property C98 (changed account settings count from the reload on). *)
From Verif Require Import Base SpecWire WireProofs SpecText SeqModel OptionsModel CmppModel CmppProofs CmppBuildProofs PropCmpp PropCmpp2 SgipModel SpecSgip SgipProofs PropSgip SmgpModel PropSmgp
  FrameModel SpecFrame PropFrame ClientModel RecvModel PropRecv ServerModel SpecServer ServerProofs PropServer PropWindow PropLogins PropEnd PropTextEnd.

(** ** Specification *)
(** No login is under way: none waits for its check, no answer to one waits to be written. *)
Definition no_login (c : sconn) : Prop :=
  (forall k x q, ~ In (JLogin k x, q) (sc_tasks c)) /\ (forall kd b k code cli, ~ In (kd, b, CbLogin k code cli) (sc_queue c)).

(** ** Logins after a reload *)
Section Since.
Variable pr : params.
Variable l0 : list obs.
Definition job_new (j : job) : Prop := match j with JLogin k x => pk_cmd k = 1 /\ bytes_ok (pk_body k) /\ decode_login (pr_p pr) k = Ok x | _ => True end.
Definition item_new (it : item) : Prop := match snd it with CbLogin k code cli => code = 0 -> exists a, cli = Some a /\ gen pr k a | _ => True end.
Definition since (c : sconn) : Prop :=
  bytes_ok (sc_buf c) /\ (exists l, sc_log c = l0 ++ l /\ forall k a, In (OLogin k a) l -> gen pr k a) /\
  (forall t, In t (sc_tasks c) -> job_new (fst t)) /\ (forall it, In it (sc_queue c) -> item_new it).

Lemma since_to c c' : since c -> bytes_ok (sc_buf c') -> (exists l, sc_log c' = sc_log c ++ l /\ forall k a, In (OLogin k a) l -> gen pr k a) ->
  (forall t, In t (sc_tasks c') -> In t (sc_tasks c) \/ job_new (fst t)) -> (forall it, In it (sc_queue c') -> In it (sc_queue c) \/ item_new it) -> since c'.
Proof.
  intros (_ & (l & E & L) & T & Q) B (l' & E' & L') T' Q'. split; [exact B|]. split.
  - exists (l ++ l'). rewrite E', E, app_assoc. split; [reflexivity|]. intros k a H. apply in_app_or in H as [H|H]; auto.
  - split; [intros t H; destruct (T' t H); auto|intros it H; destruct (Q' it H); auto].
Qed.
Lemma since_same c s w x : since c -> since (SConn (sc_buf c) (sc_open c) s x (sc_tasks c) (sc_queue c) w (sc_log c)).
Proof. intros H. exact H. Qed.
Lemma log_same (l : list obs) : exists l', l = l ++ l' /\ forall k a, In (OLogin k a) l' -> gen pr k a.
Proof. exists []. rewrite app_nil_r. split; [reflexivity|intros k a []]. Qed.
Lemma log_one (l : list obs) o : (forall k a, o = OLogin k a -> gen pr k a) -> exists l', l ++ [o] = l ++ l' /\ forall k a, In (OLogin k a) l' -> gen pr k a.
Proof. intros H. exists [o]. split; [reflexivity|]. intros k a [E|[]]. apply H. exact E. Qed.
Lemma since_note c o : since c -> (forall k a, o = OLogin k a -> gen pr k a) -> since (note c o).
Proof. intros H N. apply (since_to c); [exact H|apply H|apply log_one; exact N|auto|auto]. Qed.
Lemma since_spawn c j : since c -> job_new j -> since (spawn c j).
Proof. intros H N. apply (since_to c); [exact H|apply H|apply log_same| |auto]. intros t X. apply in_app_or in X as [X|[<-|[]]]; auto. Qed.
Lemma since_close c : since c -> since (OnClose c).
Proof.
  intros H. unfold OnClose. destruct (negb _); [exact H|]. apply (since_to c); [exact H|apply H| |auto|intros it []].
  unfold note. cbn [sc_log closeResource with_chans with_sess]. apply log_one. discriminate.
Qed.
Lemma item_job_new o j it : item_of pr o j it -> job_new j -> item_new it.
Proof.
  intros H J. destruct H; unfold item_new; cbn [snd]; try exact Logic.I. intros E. destruct J as (B & C & D).
  assert (X : fst (login_check (pr_md5 pr) l (pr_find pr (o_gen o) (login_key l))) = 0) by (rewrite H; cbn [fst]; auto).
  apply (proj1 (login_genuine (pr_p pr) (pr_md5 pr) (pr_find pr (o_gen o)) k l B C D)) in X as (a & F & G). exists a. split; [exact F|exists (o_gen o); exact G].
Qed.
Lemma since_task o i c : since c -> since (on_task pr o i c).
Proof.
  intros H. destruct (nth_error (sc_tasks c) i) as [[j q]|] eqn:N; [|unfold on_task; rewrite N; exact H].
  assert (J : job_new j) by (destruct H as (_ & _ & H & _); apply (H (j, q)); eapply nth_error_In; eauto).
  assert (G : forall s w ch ts its, (forall t, In t ts -> In t (sc_tasks c) \/ fst t = j) -> (forall it, In it its -> item_of pr o j it) ->
    since (SConn (sc_buf c) (sc_open c) s ch ts (sc_queue c ++ its) w (sc_log c))).
  { intros s w ch ts its T I1. apply (since_to c); [exact H|apply H|apply log_same| |].
    - intros t Ht. destruct (T t Ht) as [X| ->]; auto.
    - intros it Hi. apply in_app_or in Hi as [X|X]; [auto|]. right. eapply item_job_new; eauto. }
  assert (U : forall q' t, In t (upd (sc_tasks c) i (j, q')) -> In t (sc_tasks c) \/ fst t = j) by (intros q' t Ht; apply (in_upd _ _ _ _ _ N) in Ht as [->|Ht]; auto).
  assert (V : forall t, In t (del (sc_tasks c) i) -> In t (sc_tasks c) \/ fst t = j) by (intros t Ht; apply in_del in Ht; auto).
  assert (G0 : forall s w ch ts, (forall t, In t ts -> In t (sc_tasks c) \/ fst t = j) -> since (SConn (sc_buf c) (sc_open c) s ch ts (sc_queue c) w (sc_log c))).
  { intros s w ch ts T. apply (since_to c); [exact H|apply H|apply log_same| |auto]. intros t Ht. destruct (T t Ht) as [X| ->]; auto. }
  destruct (on_task_step pr o i c j q N) as [W F|Ej|it W I1 C1|g W Q|W Q S|W Q|k r it code a Ej Eq I1 C1 Ec Ek Ea|s' its w W Eq Nj SS It Wi|its a k Eq W It|g W Q|W Q];
    try (apply G0; solve [apply V|apply U]).
  - apply G; [apply V|]. intros it' [<-|[]]. exact I1.
  - unfold try_send. destruct (ch_closed _); [apply G0, V|]. destruct (_ <? _); [apply G0, U|apply G0, U].
  - apply G; [apply U|]. intros it' [<-|[]]. exact I1.
  - apply G; [apply U|]. intros it' Hi. destruct It as [->|(it0 & -> & X & _)]; [destruct Hi|destruct Hi as [<-|[]]; exact X].
  - apply G; [apply U|]. intros it' Hi. destruct It as [->|(b & -> & X & _)]; [destruct Hi|destruct Hi as [<-|[]]; exact X].
  - unfold try_recv. destruct (_ <? _); [apply G0, V|]. destruct (ch_closed _); [apply G0, V|apply G0, U].
  - exact H.
Qed.
Lemma since_write o c c' : since c -> on_write o c = Ok c' -> since c'.
Proof.
  intros H E. unfold on_write in E. destruct (sc_open c) eqn:O; [|injection E as <-; exact H].
  destruct (sc_queue c) as [|[[kd b] f] r] eqn:Q; [injection E as <-; exact H|].
  assert (K : item_new (kd, b, f)) by (destruct H as (_ & _ & _ & H); apply H; rewrite Q; left; reflexivity).
  set (c1 := note (with_queue c r) (OOut kd b)) in E.
  assert (H1 : since c1).
  { unfold c1. apply since_note; [|discriminate]. apply (since_to c); [exact H|apply H|apply log_same|auto|]. intros it Hi. left. rewrite Q. right. exact Hi. }
  unfold item_new in K. cbn [snd] in K. clearbody c1. destruct f; cbn [callback] in E; try (injection E as <-; exact H1).
  - destruct ac as [ac|].
    + destruct (code =? 0) eqn:C0; [|injection E as <-; exact H1]. apply Z.eqb_eq in C0. destruct (K C0) as (a & Ea & G). injection Ea as <-.
      apply bind_ok in E as (c2 & Ec & E). injection E as <-. unfold completeLogin in Ec. destruct (_ <? 0); [discriminate|]. injection Ec as <-.
      apply since_note; [|intros k0 a0 X; injection X as <- <-; exact G]. exact H1.
    + destruct (code =? 0); [discriminate|]. injection E as <-. exact H1.
  - destruct (code =? 0); injection E as <-; exact H1.
Qed.
Lemma since_tick o c : since c -> since (on_tick pr o c).
Proof.
  intros H. unfold on_tick. destruct (negb _); [exact H|]. destruct (_ || _); [destruct (o_acc o); [apply since_spawn; [exact H|exact Logic.I]|exact H]|].
  destruct (se_stat (sc_sess c)); auto. assert (H1 : since (if o_acc o then spawn c JHeart else c)) by (destruct (o_acc o); [apply since_spawn; [exact H|exact Logic.I]|exact H]).
  destruct (o_dly o); [|exact H1]. destruct (o_acc2 o); [|exact H1]. apply since_spawn; [exact H1|exact Logic.I].
Qed.
Lemma since_buf c b : since c -> bytes_ok b -> since (with_buf c b).
Proof. intros (_ & H) B. split; [exact B|exact H]. Qed.
Lemma since_recv o seg c c' : bytes_ok seg -> since c -> on_recv pr o seg c = Ok c' -> since c'.
Proof.
  intros Hs H E. apply on_recv_step in E. assert (B : bytes_ok (sc_buf c ++ seg)) by (apply Forall_app; split; [apply H|exact Hs]).
  destruct E as [O|O F|O F|k rest O F N|k rest h a c1 O F Hin Hc HA]; auto.
  - apply since_buf; auto.
  - apply since_close, since_buf; auto.
  - apply since_buf; auto. eapply dch_bytes; eauto.
  - destruct (dch_bytes _ _ _ _ _ B F) as [Bk Br]. assert (X : since c1); [|destruct a; [apply since_buf; auto|apply since_close, since_buf; auto]].
    assert (H0 : since (note c (OGot k))) by (apply since_note; [exact H|discriminate]).
    assert (H2 : forall x, since (note (note c (OGot k)) (OServe k x))) by (intros x; apply since_note; [exact H0|discriminate]).
    destruct HA as [|l E1 E2 E3|r E1 X E2 E3 E4 E5|r E1 X E2 E3 E4 E5|r E1 X E2 E3 E4 E5|j E1 E2 X E3 E4 E5 E6 E7]; auto.
    + apply since_spawn; [exact H0|]. split; [|auto]. rewrite <- Hc, E1. destruct (pr_p pr); reflexivity.
    + apply since_spawn; [apply H2|exact Logic.I].
    + apply since_spawn; [apply H2|exact Logic.I].
    + apply since_spawn; [apply H2|]. destruct j; try discriminate E5; exact Logic.I.
Qed.
Lemma since_run es c c' : segs_ok es -> since c -> run pr c es = Ok c' -> since c'.
Proof.
  revert c. induction es as [|[e o] es IH]; intros c Hs H E; cbn [run] in E; [congruence|].
  apply bind_ok in E as (c1 & E1 & E2). inversion Hs as [|? ? Hs1 Hs2]; subst. apply (IH c1 Hs2); [|exact E2]. cbn [fst] in Hs1. destruct e as [seg|i| | |]; cbn [step] in E1.
  - eapply since_recv; eauto.
  - injection E1 as <-. apply since_task. exact H.
  - eapply since_write; eauto.
  - injection E1 as <-. apply since_tick. exact H.
  - injection E1 as <-. apply since_close. exact H.
Qed.
End Since.

(** Every login that takes effect after a moment at which none was under way carried the credentials of
    an account as the store holds it at some moment from then on, whatever it held before. *)
Theorem C98_latest_partial : forall pr now es1 es2 c1 c2 l k a, segs_ok es1 -> segs_ok es2 -> run pr (opened now) es1 = Ok c1 -> no_login c1 ->
  run pr c1 es2 = Ok c2 -> sc_log c2 = sc_log c1 ++ l -> In (OLogin k a) l ->
  exists e, In e es2 /\ genuine (pr_p pr) (pr_md5 pr) (pr_find pr (o_gen (snd e))) k a.
Proof.
  intros pr now es1 es2 c1 c2 l k a S1 S2 R1 [T Q] R2 L I1.
  assert (B : bytes_ok (sc_buf c1)) by (apply (auth_run pr es1 _ _ S1 (auth_opened pr now) R1)).
  assert (H : since (only pr es2) (sc_log c1) c1).
  { split; [exact B|]. split; [exists []; rewrite app_nil_r; split; [reflexivity|intros ? ? []]|]. split.
    - intros [j q] X. destruct j; try exact Logic.I. destruct (T _ _ _ X).
    - intros [[kd b] f] X. unfold item_new. cbn [snd]. destruct f; try exact Logic.I. destruct (Q _ _ _ _ _ X). }
  rewrite <- run_only in R2. destruct (since_run _ _ _ _ _ S2 H R2) as (_ & (l' & E & G) & _).
  rewrite L in E. apply app_inv_head in E. subst l'. apply gen_only, G, I1.
Qed.
(** A login packet made with another secret than the account has when the login is handled is refused
    and the connection is to be closed, unless md5 gives the same digest to the two texts that differ
    in the secret only; in SGIP, which sends the secret itself, without exception. *)
Theorem C98_old_refused : forall pr ac sq q ts tsn, real_md5 (pr_md5 pr) -> fitting (pr_p pr) ac -> seq_wf q -> 0 <= tsn < 2 ^ 32 -> ten_digits ts tsn -> (forall v, windows_ok (pr_find pr v)) ->
  forall now segs o2 o3, login_packet (pr_md5 pr) (pr_p pr) ac sq q ts tsn = Ok (concat (map fst segs)) -> Forall (fun x => o_acc (snd x) = true) segs ->
  (forall a, pr_find pr (o_gen o2) (ac_ClientId ac) = Some a -> ac_ClientId a = ac_ClientId ac /\ ac_SharedSecret a <> ac_SharedSecret ac) ->
  (exists a z, pr_find pr (o_gen o2) (ac_ClientId ac) = Some a /\ pr_p pr <> P_SGIP /\
     pr_md5 pr (ac_ClientId ac ++ repeat 0 z ++ ac_SharedSecret ac ++ ts) = pr_md5 pr (ac_ClientId ac ++ repeat 0 z ++ ac_SharedSecret a ++ ts)) \/
  exists c, login_run pr now segs o2 o3 = Ok c /\ se_stat (sc_sess c) = StatClosing /\ sc_wish c = true.
Proof.
  intros pr ac sq q ts tsn M F Q T D W now segs o2 o3 E A NS. destruct (C69_agree_partial pr ac sq q ts tsn M F Q T D W) as (b & E' & H).
  assert (EB : concat (map fst segs) = b) by congruence. destruct (H now segs o2 o3 [] 0 EB A) as (c & out & R & _ & [(EN & _)|(_ & S & X & _)]).
  - left. destruct EN as (a & Fa & Ma & _). destruct (NS a Fa) as [N1 N2]. unfold matching in Ma. exists a. destruct (pr_p pr).
    + destruct Ma as [_ Ma]. rewrite N1 in Ma. exists 9%nat. split; [exact Fa|]. split; [discriminate|exact Ma].
    + destruct Ma as [_ Ma]. congruence.
    + destruct Ma as [_ Ma]. rewrite N1 in Ma. exists 7%nat. split; [exact Fa|]. split; [discriminate|exact Ma].
  - right. exists c. auto.
Qed.

(** ** Connections that are logged in *)
Lemma step_blind pr f c e : (forall k x q, ~ In (JLogin k x, q) (sc_tasks c)) ->
  pr_find pr (o_gen (snd e)) (se_cid (sc_sess c)) <> None -> f (o_gen (snd e)) (se_cid (sc_sess c)) <> None -> step (with_find pr f) c e = step pr c e.
Proof.
  destruct pr as [p d m g f0 dl fo], e as [[seg|i| | |] o]; cbn [snd pr_find]; intros N H0 H; try reflexivity.
  cbn [step]. f_equal. unfold on_task. destruct (nth_error (sc_tasks c) i) as [[j q]|] eqn:E; [|reflexivity].
  assert (P : plain_job (with_find (Params p d m g f0 dl fo) f) o j c = plain_job (Params p d m g f0 dl fo) o j c).
  { destruct j; try reflexivity. exfalso. apply nth_error_In in E. exact (N _ _ _ E). }
  rewrite P. clear P. destruct (plain_job (Params p d m g f0 dl fo) o j c); [reflexivity|]. destruct q; try reflexivity.
  - assert (W : work (with_find (Params p d m g f0 dl fo) f) o j c = work (Params p d m g f0 dl fo) o j c).
    { destruct j; try reflexivity. cbn [work with_find pr_find pr_md5 pr_p pr_delay_ok]. destruct (f _ _), (f0 _ _); congruence || reflexivity. }
    rewrite W. reflexivity.
  - assert (W : report (with_find (Params p d m g f0 dl fo) f) o j a c = report (Params p d m g f0 dl fo) o j a c).
    { destruct j; try reflexivity. unfold report. replace (report_bytes (with_find (Params p d m g f0 dl fo) f) r a o (se_cid (sc_sess c)))
        with (report_bytes (Params p d m g f0 dl fo) r a o (se_cid (sc_sess c))); [reflexivity|]. destruct r, a; try reflexivity. cbn [report_bytes with_find pr_find].
      destruct (o_norep o); [reflexivity|]. destruct (f _ _) as [a1|], (f0 _ _) as [a2|]; try congruence. unfold smgp_NewDeliveryReport. destruct (at_ _ _); reflexivity. }
    rewrite W. reflexivity.
Qed.
Lemma no_login_close c : no_login c -> no_login (OnClose c) /\ se_cid (sc_sess (OnClose c)) = se_cid (sc_sess c).
Proof. intros [T Q]. unfold OnClose. destruct (negb _); [split; [split|]; auto|]. split; [split; [exact T|intros ? ? ? ? ? []]|reflexivity]. Qed.
Lemma no_login_step pr c e c' l : no_login c -> step pr c e = Ok c' -> sc_log c' = sc_log c ++ l -> (forall k, In (OGot k) l -> pk_cmd k <> 1) ->
  no_login c' /\ se_cid (sc_sess c') = se_cid (sc_sess c).
Proof.
  intros [T Q] E L NL. destruct e as [[seg|i| | |] o]; cbn [step] in E.
  - apply on_recv_step in E. destruct E as [O|O F|O F|k rest O F N|k rest h a c1 O F Hin Hc HA]; try (split; [split; assumption|reflexivity]).
    + apply (no_login_close (with_buf c (sc_buf c ++ seg))). split; assumption.
    + assert (G : In (OGot k) l).
      { assert (X : exists l', sc_log (closing a (with_buf c1 rest)) = sc_log c ++ OGot k :: l').
        { assert (Y : exists l', sc_log c1 = sc_log c ++ OGot k :: l').
          { destruct HA; cbn [spawn with_tasks note sc_log]; rewrite <- ?app_assoc; eexists; reflexivity. }
          destruct Y as [l' Y]. destruct a; [exists l'; exact Y|]. cbn [closing]. unfold OnClose. destruct (negb _); [exists l'; exact Y|].
          exists (l' ++ [OClose]). unfold note. cbn [sc_log closeResource with_chans with_sess with_buf]. rewrite Y, <- app_assoc. reflexivity. }
        destruct X as [l' X]. rewrite L in X. apply app_inv_head in X. rewrite X. left. reflexivity. }
      assert (X : no_login c1 /\ se_cid (sc_sess c1) = se_cid (sc_sess c)).
      { destruct HA as [|l1 E1 E2 E3|r E1 X E2 E3 E4 E5|r E1 X E2 E3 E4 E5|r E1 X E2 E3 E4 E5|j E1 E2 X E3 E4 E5 E6 E7]; (split; [|reflexivity]); (split; [|exact Q]);
          cbn [spawn with_tasks note sc_tasks]; try exact T; intros k0 x0 q0 I1; apply in_app_or in I1 as [I1|[I1|[]]]; try (exact (T _ _ _ I1)); try discriminate I1.
        - exfalso. apply (NL k G). rewrite <- Hc, E1. destruct (pr_p pr); reflexivity.
        - injection I1 as X1 _. subst j. discriminate E5. }
      destruct X as [X Y]. destruct a; cbn [closing]; [split; [exact X|exact Y]|]. destruct (no_login_close (with_buf c1 rest)) as [Z1 Z2]; [exact X|]. split; [exact Z1|rewrite Z2; exact Y].
  - injection E as <-. destruct (nth_error (sc_tasks c) i) as [[j q]|] eqn:N; [|unfold on_task; rewrite N; split; [split; assumption|reflexivity]].
    assert (NJ : forall k x, j <> JLogin k x) by (intros k x ->; apply nth_error_In in N; exact (T _ _ _ N)).
    assert (U : forall q' k x q0, ~ In (JLogin k x, q0) (upd (sc_tasks c) i (j, q'))).
    { intros q' k x q0 I1. apply (in_upd _ _ _ _ _ N) in I1 as [I1|I1]; [injection I1 as I1 _; exact (NJ k x (eq_sym I1))|exact (T _ _ _ I1)]. }
    assert (V : forall k x q0, ~ In (JLogin k x, q0) (del (sc_tasks c) i)) by (intros k x q0 I1; apply in_del in I1; exact (T _ _ _ I1)).
    assert (P : forall its kd b k code cli, (forall it, In it its -> item_of pr o j it) -> ~ In (kd, b, CbLogin k code cli) (sc_queue c ++ its)).
    { intros its kd b k code cli H I1. apply in_app_or in I1 as [I1|I1]; [exact (Q _ _ _ _ _ I1)|]. specialize (H _ I1). inversion H; subst. eapply NJ. reflexivity. }
    destruct (on_task_step pr o i c j q N) as [W F|Ej|it W I1 C1|g W Q1|W Q1 S|W Q1|k r it code a Ej Eq I1 C1 Ec Ek Ea|s' its w W Eq Nj SS It Wi|its a k Eq W It|g W Q1|W Q1];
      try (split; [split; [solve [apply V|apply U]|exact Q]|reflexivity]).
    + split; [split; [apply V|]|reflexivity]. intros; apply P. intros it' [<-|[]]. exact I1.
    + unfold try_send. destruct (ch_closed _); [split; [split; [apply V|exact Q]|reflexivity]|]. destruct (_ <? _); (split; [split; [apply U|exact Q]|reflexivity]).
    + split; [split; [apply U|]|reflexivity]. intros; apply P. intros it' [<-|[]]. exact I1.
    + split; [split; [apply U|]|apply SS]. intros; apply P. intros it' Hi. destruct It as [->|(it0 & -> & X & _)]; [destruct Hi|destruct Hi as [<-|[]]; exact X].
    + split; [split; [apply U|]|reflexivity]. intros; apply P. intros it' Hi. destruct It as [->|(b' & -> & X & _)]; [destruct Hi|destruct Hi as [<-|[]]; exact X].
    + unfold try_recv. destruct (_ <? _); [split; [split; [apply V|exact Q]|reflexivity]|]. destruct (ch_closed _); (split; [split; [solve [apply V|apply U]|exact Q]|reflexivity]).
    + split; [split; assumption|reflexivity].
  - unfold on_write in E. destruct (sc_open c) eqn:O; [|injection E as <-; split; [split; assumption|reflexivity]].
    destruct (sc_queue c) as [|[[kd b] f] r] eqn:QQ; [injection E as <-; split; [split; [exact T|rewrite QQ; exact Q]|reflexivity]|].
    assert (QR : forall kd b k code cli, ~ In (kd, b, CbLogin k code cli) r) by (intros kd0 b0 k code cli I1; apply (Q kd0 b0 k code cli); right; exact I1).
    destruct f; cbn [callback] in E; try (injection E as <-; split; [split; [exact T|exact QR]|reflexivity]).
    + exfalso. eapply Q. left. reflexivity.
    + destruct (code =? 0); injection E as <-; (split; [split; [exact T|exact QR]|reflexivity]).
  - injection E as <-. unfold on_tick. destruct (negb _); [split; [split; assumption|reflexivity]|].
    assert (X : forall d j, no_login d -> (forall k x, j <> JLogin k x) -> no_login (spawn d j)).
    { intros d j [T' Q'] NJ. split; [|exact Q']. intros k x q I1. apply in_app_or in I1 as [I1|[I1|[]]]; [exact (T' _ _ _ I1)|]. injection I1 as X _. exact (NJ _ _ X). }
    assert (S0 : no_login c) by (split; assumption).
    destruct (_ || _); [destruct (o_acc o); (split; [|reflexivity]); [apply X; [exact S0|discriminate]|exact S0]|].
    destruct (se_stat (sc_sess c)); try (split; [exact S0|reflexivity]).
    assert (S1 : no_login (if o_acc o then spawn c JHeart else c)) by (destruct (o_acc o); [apply X; [exact S0|discriminate]|exact S0]).
    assert (C1 : se_cid (sc_sess (if o_acc o then spawn c JHeart else c)) = se_cid (sc_sess c)) by (destruct (o_acc o); reflexivity).
    destruct (o_dly o); [|split; assumption]. destruct (o_acc2 o); [|split; assumption]. split; [apply X; [exact S1|discriminate]|exact C1].
  - injection E as <-. apply no_login_close. split; assumption.
Qed.
(** From any state in which no login is under way, and as long as none arrives, the connection is
    treated the same whatever the store holds from then on: a changed secret, connection limit,
    window or version makes no difference to it (the rate limiter, here one of the given answers, is
    likewise made once, when the login completes; msc_server/server/session.go:72-95) (the account must only still be there, and
    it always is, C67). *)
Theorem C98_refuted : forall pr f es c c' l, no_login c -> run pr c es = Ok c' -> sc_log c' = sc_log c ++ l -> (forall k, In (OGot k) l -> pk_cmd k <> 1) ->
  (forall e, In e es -> pr_find pr (o_gen (snd e)) (se_cid (sc_sess c)) <> None /\ f (o_gen (snd e)) (se_cid (sc_sess c)) <> None) ->
  run (with_find pr f) c es = Ok c'.
Proof.
  intros pr f es. induction es as [|e es IH]; intros c c' l S R L NL H; cbn [run] in *; [exact R|].
  apply bind_ok in R as (c1 & E & R). rewrite step_blind; [|apply S|apply H; left; reflexivity|apply H; left; reflexivity]. rewrite E. cbn [bind].
  assert (G1 : grows c c1) by (apply (log_run pr [e]); cbn [run]; rewrite E; reflexivity). assert (G2 : grows c1 c') by (apply (log_run pr es); exact R).
  destruct G1 as [l1 L1]. destruct G2 as [l2 L2]. assert (EL : l = l1 ++ l2) by (rewrite L1, <- app_assoc in L2; rewrite L2 in L; apply app_inv_head in L; congruence). subst l.
  destruct (no_login_step pr c e c1 l1 S E L1) as [S1 C1]; [intros k I1; apply NL; apply in_or_app; auto|].
  apply (IH c1 c' l2 S1 R L2); [intros k I1; apply NL; apply in_or_app; auto|]. intros e' He. rewrite C1. apply H. right. exact He.
Qed.

(** ** Cases *)
(** The account's secret is s3 at first and s4 after the reload. *)
Definition re_pr (p : proto) : params := Params p true end_md5 (fun b => Some b)
  (fun v n => if beqb n (end_id p) then Some (end_acc (end_id p) (if v =? 0 then [115;51] else [115;52])) else None) true 1000000000000.
Definition re_orc (v : Z) : orc := Orc true true true 5 false false 1 2 3 (1, 2, 3) (repeat 0 10) (repeat 0 10) (repeat 48 10) (repeat 48 10) (repeat 48 10) 0 0 (fun _ => 0) None v.
Definition re_login (p : proto) (secret : bytes) : bytes := match login_packet end_md5 p (end_acc (end_id p) secret) 7 (1, 2, 3) [49;49;49;54;48;48;48;48;48;48] 1116000000 with Ok b => b | _ => [] end.
Definition re_try (p : proto) (v : Z) (secret : bytes) : option (sstat * bool) :=
  match login_run (re_pr p) 0 [(re_login p secret, re_orc v)] (re_orc v) (re_orc v) with Ok c => Some (se_stat (sc_sess c), sc_wish c) | _ => None end.
(** Before the reload the old secret counts, after it the new one. *)
Example C98_login_case : forall p, re_try p 0 [115;51] = Some (StatLogin, false) /\ re_try p 0 [115;52] = Some (StatClosing, true) /\
  re_try p 1 [115;51] = Some (StatClosing, true) /\ re_try p 1 [115;52] = Some (StatLogin, false).
Proof. intros p. destruct p; vm_compute; repeat split; reflexivity. Qed.
(** A connection that logged in with the old secret is served after the reload: its submit is answered. *)
Definition re_first (p : proto) : list (event * orc) := [(ERecv (re_login p [115;51]), re_orc 0); (ETask 0, re_orc 0); (EWrite, re_orc 0)].
Definition re_after (p : proto) : list (event * orc) := [(ERecv (te_sent p te_text), re_orc 1); (ETask 0, re_orc 1); (ETask 0, re_orc 1); (EWrite, re_orc 1); (ETask 0, re_orc 1); (ETask 0, re_orc 1); (EWrite, re_orc 1)].
Example C98_refuted_case : forall p, exists c c' l, run (re_pr p) (opened 0) (re_first p) = Ok c /\ no_login c /\ se_stat (sc_sess c) = StatLogin /\
  run (re_pr p) c (re_after p) = Ok c' /\ sc_log c' = sc_log c ++ l /\ (exists k, In (OServe k false) l) /\ (forall k, In (OGot k) l -> pk_cmd k <> 1) /\
  se_stat (sc_sess c') = StatLogin /\ sc_open c' = true.
Proof.
  intros p. destruct (run (re_pr p) (opened 0) (re_first p)) as [c| |] eqn:E1; [|destruct p; vm_compute in E1; discriminate E1|destruct p; vm_compute in E1; discriminate E1].
  destruct (run (re_pr p) c (re_after p)) as [c'| |] eqn:E2; [|destruct p; vm_compute in E1; injection E1 as <-; vm_compute in E2; discriminate E2|destruct p; vm_compute in E1; injection E1 as <-; vm_compute in E2; discriminate E2].
  exists c, c', (skipn (length (sc_log c)) (sc_log c')). split; [reflexivity|].
  destruct p; vm_compute in E1; injection E1 as <-; vm_compute in E2; injection E2 as <-; (split; [split; [intros ? ? ? []|intros ? ? ? ? ? []]|]);
    (split; [reflexivity|]); (split; [reflexivity|]); (split; [reflexivity|]); cbn [length sc_log skipn].
  all: split; [eexists; cbn [In]; repeat (first [left; reflexivity|right])|]. all: split; [|split; reflexivity]. all: intros k H; cbn [In] in H; repeat (destruct H as [H|H]; [try discriminate H; injection H as <-; discriminate|]); destruct H.
Qed.
Print Assumptions C98_latest_partial.
Print Assumptions C98_old_refused.
Print Assumptions C98_refuted.

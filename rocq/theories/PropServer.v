(** * PropServer: property C50 (only authenticated sessions are served). *)
From Verif Require Import Base UtilsModel OptionsModel SpecText SpecWire WireProofs CmppModel PropCmpp SgipModel SmgpModel
  FrameModel SpecServer ServerModel ServerProofs.

(** The bytes a peer sends are bytes. *)
Definition segs_ok (es : list (event * orc)) : Prop :=
  Forall (fun e => match fst e with ERecv s => bytes_ok s | _ => True end) es.
Definition logged (l : list obs) : Prop := exists k a, In (OLogin k a) l.
(** Output that only a served client gets: everything but login responses and the ticker's
    terminate request. *)
Definition served_kind (o : okind) : bool := match o with KLogin _ _ | KForce => false | _ => true end.

(** ** Invariant *)
Section Auth.
Variable pr : params.
(** the packet carries the credentials of an account that is in the store at some time *)
Definition gen (k : packet) (a : authconf) : Prop := exists v, genuine (pr_p pr) (pr_md5 pr) (pr_find pr v) k a.
Definition ok_after (l : list obs) (o : obs) : Prop :=
  match o with
  | OServe k _ => logged l /\ In (OGot k) l
  | OLogin k a => In (OGot k) l /\ gen k a
  | OOut kd _ => served_kind kd = true -> logged l
  | _ => True
  end.
Definition good_log (l : list obs) : Prop := forall l1 o l2, l = l1 ++ o :: l2 -> ok_after l1 o.
Definition job_ok (l : list obs) (j : job) : Prop :=
  match j with
  | JLogin k x => In (OGot k) l /\ pk_cmd k = 1 /\ bytes_ok (pk_body k) /\ decode_login (pr_p pr) k = Ok x
  | JForce => True
  | _ => logged l
  end.
Definition item_ok (l : list obs) (it : item) : Prop :=
  (served_kind (fst (fst it)) = true -> logged l) /\
  match snd it with
  | CbLogin k code cli => code = 0 -> exists a, cli = Some a /\ gen k a /\ In (OGot k) l
  | _ => True
  end.
Definition auth (c : sconn) : Prop :=
  bytes_ok (sc_buf c) /\ good_log (sc_log c) /\ (forall t, In t (sc_tasks c) -> job_ok (sc_log c) (fst t)) /\
  (forall it, In it (sc_queue c) -> item_ok (sc_log c) it) /\ (se_stat (sc_sess c) = StatLogin -> logged (sc_log c)).

Lemma good_snoc l o : good_log l -> ok_after l o -> good_log (l ++ [o]).
Proof.
  intros H Ho l1 x l2 E. destruct l2 as [|y l2] using rev_ind.
  - apply app_inj_tail in E as [-> ->]. exact Ho.
  - clear IHl2. change (l1 ++ x :: l2 ++ [y]) with (l1 ++ (x :: l2) ++ [y]) in E. rewrite app_assoc in E. apply app_inj_tail in E as [E _].
    apply (H l1 x l2 E).
Qed.
Lemma logged_mono l r : logged l -> logged (l ++ r).
Proof. intros (k & a & H). exists k, a. apply in_or_app. auto. Qed.
Lemma job_mono l r j : job_ok l j -> job_ok (l ++ r) j.
Proof. destruct j; cbn [job_ok]; auto using logged_mono. intros (A & B). split; [apply in_or_app; auto|exact B]. Qed.
Lemma item_mono l r it : item_ok l it -> item_ok (l ++ r) it.
Proof.
  intros [A B]. split; [auto using logged_mono|]. destruct (snd it); auto. intros C. destruct (B C) as (a & X & Y & Z). exists a.
  split; [exact X|]. split; [exact Y|]. apply in_or_app. auto.
Qed.
(** noting an observation *)
Lemma auth_note c o : auth c -> ok_after (sc_log c) o -> auth (note c o).
Proof.
  intros (A & B & C & D & E) H. unfold auth, note. cbn [sc_buf sc_log sc_tasks sc_queue sc_sess].
  split; [exact A|]. split; [apply good_snoc; auto|]. split; [intros; apply job_mono; auto|]. split; [intros; apply item_mono; auto|].
  intros X. apply logged_mono. auto.
Qed.
Lemma auth_spawn c j : auth c -> job_ok (sc_log c) j -> auth (spawn c j).
Proof.
  intros (A & B & C & D & E) H. unfold auth, spawn, with_tasks. cbn [sc_buf sc_log sc_tasks sc_queue sc_sess].
  split; [exact A|]. split; [exact B|]. split; [|auto]. intros t Ht. apply in_app_or in Ht as [Ht|[<-|[]]]; auto.
Qed.
Lemma auth_tasks c ts : auth c -> (forall t, In t ts -> job_ok (sc_log c) (fst t)) -> auth (with_tasks c ts).
Proof. intros (A & B & C & D & E) H. unfold auth, with_tasks. cbn [sc_buf sc_log sc_tasks sc_queue sc_sess]. auto. Qed.
Lemma auth_chans c x : auth c -> auth (with_chans c x).
Proof. intros (A & B & C & D & E). unfold auth, with_chans. cbn [sc_buf sc_log sc_tasks sc_queue sc_sess]. auto. Qed.
Lemma auth_buf c b : auth c -> bytes_ok b -> auth (with_buf c b).
Proof. intros (A & B & C & D & E) H. unfold auth, with_buf. cbn [sc_buf sc_log sc_tasks sc_queue sc_sess]. auto. Qed.
Lemma auth_sess c s w : auth c -> (se_stat s = StatLogin -> logged (sc_log c)) ->
  auth (SConn (sc_buf c) (sc_open c) s (sc_chans c) (sc_tasks c) (sc_queue c) w (sc_log c)).
Proof. intros (A & B & C & D & E) H. unfold auth. cbn [sc_buf sc_log sc_tasks sc_queue sc_sess]. auto. Qed.
Lemma auth_items c its : auth c -> (forall it, In it its -> item_ok (sc_log c) it) -> auth (with_queue c (sc_queue c ++ its)).
Proof.
  intros (A & B & C & D & E) H. unfold auth, with_queue. cbn [sc_buf sc_log sc_tasks sc_queue sc_sess].
  split; [exact A|]. split; [exact B|]. split; [exact C|]. split; [|exact E]. intros it Hi. apply in_app_or in Hi as [Hi|Hi]; auto.
Qed.
Lemma auth_close c : auth c -> auth (OnClose c).
Proof.
  intros H. unfold OnClose. destruct (sc_open c); cbn [negb]; [|exact H].
  destruct H as (A & B & C & D & E). unfold auth, note, closeResource. destruct (se_win (sc_sess c));
  cbn [with_chans with_sess sc_buf sc_log sc_tasks sc_queue sc_sess se_stat];
  (split; [exact A|]; split; [apply good_snoc; [exact B|exact I]|]; split; [intros; apply job_mono; auto|]; split; [intros it []|]; intros X; apply logged_mono; auto).
Qed.
Lemma auth_closing a c : auth c -> auth (closing a c).
Proof. destruct a; [auto|apply auth_close]. Qed.

(** what a goroutine queues is as good as the goroutine *)
Lemma item_job o j it l : item_of pr o j it -> job_ok l j -> item_ok l it.
Proof.
  intros H J. destruct H; cbn [job_ok] in J; unfold item_ok; cbn [fst snd served_kind]; try (split; [solve [auto|discriminate]|exact I]).
  split; [discriminate|]. intros E. destruct J as (A & B & C & D).
  assert (X : fst (login_check (pr_md5 pr) l0 (pr_find pr (o_gen o) (login_key l0))) = 0) by (rewrite H; cbn [fst]; auto).
  apply (proj1 (login_genuine (pr_p pr) (pr_md5 pr) (pr_find pr (o_gen o)) k l0 B C D)) in X as (a & F & G). exists a.
  split; [exact F|]. split; [exists (o_gen o); exact G|exact A].
Qed.
Lemma auth_task o i c : auth c -> auth (on_task pr o i c).
Proof.
  intros H. destruct (nth_error (sc_tasks c) i) as [[j q]|] eqn:N; [|unfold on_task; rewrite N; exact H].
  assert (J : job_ok (sc_log c) j) by (destruct H as (_ & _ & H & _); apply (H (j, q)); eapply nth_error_In; eauto).
  assert (U : forall q', auth (with_tasks c (upd (sc_tasks c) i (j, q')))).
  { intros q'. apply auth_tasks; [exact H|]. intros t Ht. apply (in_upd _ _ _ _ _ N) in Ht as [->|Ht]; [exact J|]. destruct H as (_ & _ & H & _). auto. }
  assert (V : auth (with_tasks c (del (sc_tasks c) i))).
  { apply auth_tasks; [exact H|]. intros t Ht. apply in_del in Ht. destruct H as (_ & _ & H & _). auto. }
  assert (P : forall its ts, auth (with_tasks c ts) -> (forall it, In it its -> item_of pr o j it) -> auth (put c its ts)).
  { intros its ts A B. apply (auth_items (with_tasks c ts) its); [exact A|]. intros it Hi. eapply item_job; eauto. }
  destruct (on_task_step pr o i c j q N) as [W F|Ej|it W I1 C1|g W Q|W Q S|W Q|k r it code a Ej Eq I1 C1 Ec Ek Ea|s' its w W Eq Nj SS It Wi|its a k Eq W It|g W Q|W Q]; auto.
  - apply P; [exact V|]. intros it' [<-|[]]. auto.
  - unfold try_send. destruct (ch_closed _); [exact V|]. destruct (_ <? _); [|apply U]. unfold set_chan. apply auth_chans. apply U.
  - apply P; [apply U|]. intros it' [<-|[]]. auto.
  - assert (A : auth (put c its (upd (sc_tasks c) i (j, PRelease)))).
    { apply P; [apply U|]. intros it Hi. destruct It as [->|(it0 & -> & ? & _)]; [destruct Hi|]. destruct Hi as [<-|[]]. auto. }
    apply (auth_sess _ s' w) in A; [exact A|]. destruct SS as [E _]. rewrite E. destruct H as (_ & _ & _ & _ & H). exact H.
  - apply P; [apply U|]. intros it Hi. destruct It as [->|(b & -> & ? & _)]; [destruct Hi|]. destruct Hi as [<-|[]]. auto.
  - unfold try_recv. destruct (_ <? _); [apply auth_chans; exact V|]. destruct (ch_closed _); [exact V|apply U].
Qed.
Lemma auth_resource c : auth c -> auth (closeResource c).
Proof.
  intros H. unfold closeResource. apply auth_chans. apply auth_sess; [exact H|]. cbn [se_stat]. destruct H as (_ & _ & _ & _ & H). exact H.
Qed.
Lemma auth_write o c c' : auth c -> on_write o c = Ok c' -> auth c'.
Proof.
  intros H E. unfold on_write in E. destruct (sc_open c); [|injection E as <-; exact H].
  destruct (sc_queue c) as [|[[kd b] f] r] eqn:Q; [injection E as <-; exact H|].
  assert (K : item_ok (sc_log c) (kd, b, f)) by (destruct H as (_ & _ & _ & H & _); apply H; rewrite Q; left; reflexivity).
  set (c1 := note (with_queue c r) (OOut kd b)) in E.
  assert (H1 : auth c1).
  { unfold c1. apply auth_note.
    - destruct H as (A & B & C & D & F). unfold auth, with_queue. cbn [sc_buf sc_log sc_tasks sc_queue sc_sess].
      split; [exact A|]. split; [exact B|]. split; [exact C|]. split; [|exact F]. intros it Hi. apply D. rewrite Q. right. exact Hi.
    - cbn [ok_after]. destruct K as [K _]. exact K. }
  assert (L : sc_log c1 = sc_log c ++ [OOut kd b]) by reflexivity.
  assert (ST : se_stat (sc_sess c1) = StatLogin -> logged (sc_log c1)) by (destruct H1 as (_ & _ & _ & _ & X); exact X).
  assert (Y : forall (m : packet) code, (code = 0 -> exists a, In (OGot m) (sc_log c) /\ gen m a) -> True) by auto. clear Y.
  destruct K as [_ K]. cbn [snd] in K. clearbody c1.
  destruct f; cbn [callback] in E; try (injection E as <-; apply auth_sess; [exact H1|exact ST]).
  - destruct ac as [ac|].
    + destruct (code =? 0) eqn:C0.
      * apply Z.eqb_eq in C0. destruct (K C0) as (a & Ea & G & I1). injection Ea as <-.
        apply bind_ok in E as (c2 & Ec & E). injection E as <-. unfold completeLogin in Ec.
        destruct (_ <? 0); [discriminate|]. injection Ec as <-.
        assert (IG : In (OGot k) (sc_log c1)) by (rewrite L; apply in_or_app; auto).
        assert (HR := auth_resource _ H1). assert (LR : sc_log (closeResource c1) = sc_log c1) by reflexivity.
        destruct HR as (A & B & C & D & F). rewrite LR in *.
        assert (LG : logged (sc_log c1 ++ [OLogin k ac])) by (exists k, ac; apply in_or_app; right; left; reflexivity).
        unfold auth, note, with_chans, with_sess. cbn [sc_buf sc_log sc_tasks sc_queue sc_sess]. rewrite LR.
        split; [exact A|]. split; [apply good_snoc; [exact B|]; cbn [ok_after]; auto|].
        split; [intros; apply job_mono; auto|]. split; [intros; apply item_mono; auto|]. auto.
      * injection E as <-. apply (auth_sess c1 (set_stat (sc_sess c1) StatClosing) true); [exact H1|]. cbn. discriminate.
    + destruct (code =? 0) eqn:C0; [discriminate|]. injection E as <-. apply (auth_sess c1 (set_stat (sc_sess c1) StatClosing) true); [exact H1|]. cbn. discriminate.
  - destruct (code =? 0); injection E as <-; [apply auth_sess; [exact H1|exact ST]|exact H1].
Qed.
Lemma auth_tick o c : auth c -> auth (on_tick pr o c).
Proof.
  intros H. unfold on_tick. destruct (negb _); [exact H|]. destruct (_ || _); [destruct (o_acc o); [apply auth_spawn; [exact H|exact I]|exact H]|].
  destruct (se_stat (sc_sess c)) eqn:S; auto. assert (L : logged (sc_log c)) by (destruct H as (_ & _ & _ & _ & H); auto).
  assert (H1 : auth (if o_acc o then spawn c JHeart else c) /\ sc_log (if o_acc o then spawn c JHeart else c) = sc_log c).
  { destruct (o_acc o); [split; [apply auth_spawn; auto|reflexivity]|auto]. }
  destruct H1 as [H1 E1]. destruct (o_dly o); [|exact H1]. destruct (o_acc2 o); [|exact H1]. apply auth_spawn; [exact H1|]. rewrite E1. exact L.
Qed.
Lemma dch_bytes p drain buf k rest : bytes_ok buf -> DecodeAndCheckHeader p drain buf = Ok (FPass k rest) -> bytes_ok (pk_body k) /\ bytes_ok rest.
Proof.
  intros B H. unfold DecodeAndCheckHeader in H. destruct (_ <? 12); [discriminate|]. apply bind_ok in H as ([[pkl cmd] seq] & _ & H).
  destruct (_ || _); [discriminate|]. destruct (has_suffix _ _); [discriminate|]. destruct (_ <? pkl); [discriminate|].
  assert (D : forall n b, bytes_ok b -> bytes_ok (Discard drain n b)).
  { intros n b Hb. unfold Discard. repeat match goal with |- context [if ?b then _ else _] => destruct b end; try exact Hb; try constructor; try apply bytes_ok_skipn; exact Hb. }
  assert (P : forall n b, bytes_ok b -> bytes_ok (Peek drain n b)).
  { intros n b Hb. unfold Peek. repeat match goal with |- context [if ?b then _ else _] => destruct b end; try exact Hb; try apply bytes_ok_firstn; try exact Hb; constructor. }
  assert (X : k = Packet cmd seq (Peek drain (pkl - 12) (Discard drain 12 buf)) /\ rest = Discard drain (pkl - 12) (Discard drain 12 buf)) by (split; congruence).
  destruct X as [-> ->]. cbn [pk_body]. auto.
Qed.
Lemma auth_recv o seg c c' : bytes_ok seg -> auth c -> on_recv pr o seg c = Ok c' -> auth c'.
Proof.
  intros Hs H E. apply on_recv_step in E. assert (B : bytes_ok (sc_buf c ++ seg)) by (apply Forall_app; split; [apply H|exact Hs]).
  destruct E as [O|O F|O F|k rest O F N|k rest h a c1 O F Hin Hc HA]; auto.
  - apply auth_buf; auto.
  - apply auth_close, auth_buf; auto.
  - apply auth_buf; auto. eapply dch_bytes; eauto.
  - destruct (dch_bytes _ _ _ _ _ B F) as [Bk Br]. apply auth_closing, auth_buf; [|exact Br]. clear F Br B.
    assert (H0 : auth (note c (OGot k))) by (apply auth_note; [exact H|exact I]).
    assert (G : In (OGot k) (sc_log (note c (OGot k)))) by (apply in_or_app; right; left; reflexivity).
    assert (S : se_stat (sc_sess c) = StatLogin -> logged (sc_log (note c (OGot k)))).
    { intros X. apply logged_mono. destruct H as (_ & _ & _ & _ & H). auto. }
    assert (H2 : se_stat (sc_sess c) = StatLogin -> forall x, auth (note (note c (OGot k)) (OServe k x)) /\ logged (sc_log (note (note c (OGot k)) (OServe k x)))).
    { intros X x. split; [apply auth_note; [exact H0|]; cbn [ok_after]; auto|]. apply logged_mono. auto. }
    destruct HA as [|l E1 E2 E3|r E1 X E2 E3 E4 E5|r E1 X E2 E3 E4 E5|r E1 X E2 E3 E4 E5|j E1 E2 X E3 E4 E5 E6 E7].
    + exact H0.
    + apply auth_spawn; [exact H0|]. cbn [job_ok]. split; [exact G|]. split; [|auto]. rewrite <- Hc, E1. destruct (pr_p pr); reflexivity.
    + destruct (H2 X true). apply auth_spawn; auto.
    + destruct (H2 X true). auto.
    + destruct (H2 X false). apply auth_spawn; auto.
    + destruct (H2 X false). apply auth_spawn; auto. destruct j; try discriminate E5; auto.
Qed.
Lemma auth_step c e c' : segs_ok [e] -> auth c -> step pr c e = Ok c' -> auth c'.
Proof.
  intros Hs H E. apply Forall_inv in Hs. destruct e as [[seg|i| | |] o]; cbn [step fst] in *.
  - eapply auth_recv; eauto.
  - injection E as <-. apply auth_task. exact H.
  - eapply auth_write; eauto.
  - injection E as <-. apply auth_tick. exact H.
  - injection E as <-. apply auth_close. exact H.
Qed.
Lemma auth_run es c c' : segs_ok es -> auth c -> run pr c es = Ok c' -> auth c'.
Proof.
  revert c. induction es as [|e es IH]; intros c Hs H E; cbn [run] in E; [congruence|].
  apply bind_ok in E as (c1 & E1 & E2). inversion Hs as [|? ? Hs1 Hs2]; subst. eapply IH; [exact Hs2| |exact E2].
  eapply auth_step; eauto. constructor; [exact Hs1|constructor].
Qed.
Lemma auth_opened now : auth (opened now).
Proof.
  unfold auth, opened. cbn [sc_buf sc_log sc_tasks sc_queue sc_sess se_stat]. split; [constructor|].
  split; [intros l1 o l2 E; destruct l1; discriminate|]. split; [intros t []|]. split; [intros it []|discriminate].
Qed.
End Auth.

Lemma handlers_nodup p : NoDup (map (handler_cmd p) (handlers p)).
Proof.
  assert (E : map (handler_cmd p) (handlers p) = nodup Z.eq_dec (map (handler_cmd p) (handlers p))) by (destruct p; vm_compute; reflexivity).
  rewrite E. apply NoDup_nodup.
Qed.

(** What the store holds at times that do not occur in a run does not matter. *)
Definition with_find (pr : params) (f : Z -> bytes -> option authconf) : params :=
  Params (pr_p pr) (pr_drain pr) (pr_md5 pr) (pr_gbd pr) f (pr_delay_ok pr) (pr_force pr).
Lemma step_find pr f c e : f (o_gen (snd e)) = pr_find pr (o_gen (snd e)) -> step (with_find pr f) c e = step pr c e.
Proof.
  destruct pr as [p d m g f0 dl fo], e as [[seg|i| | |] o]; cbn [snd pr_find]; intros H; try reflexivity.
  cbn [step]. f_equal. unfold on_task. destruct (nth_error (sc_tasks c) i) as [[j q]|]; [|reflexivity].
  assert (P : plain_job (with_find (Params p d m g f0 dl fo) f) o j c = plain_job (Params p d m g f0 dl fo) o j c).
  { destruct j; try reflexivity. cbn [plain_job]. unfold handle_login. cbn [with_find pr_find pr_md5 pr_p]. rewrite H. reflexivity. }
  rewrite P. clear P. destruct (plain_job (Params p d m g f0 dl fo) o j c); [reflexivity|]. destruct q; try reflexivity.
  - assert (W : work (with_find (Params p d m g f0 dl fo) f) o j c = work (Params p d m g f0 dl fo) o j c).
    { destruct j; try reflexivity. cbn [work with_find pr_find pr_md5 pr_p pr_delay_ok]. rewrite H. reflexivity. }
    rewrite W. reflexivity.
  - assert (W : report (with_find (Params p d m g f0 dl fo) f) o j a c = report (Params p d m g f0 dl fo) o j a c).
    { destruct j; try reflexivity. unfold report, report_bytes. cbn [with_find pr_find]. rewrite H. reflexivity. }
    rewrite W. reflexivity.
Qed.
Lemma run_find pr f c es : (forall e, In e es -> f (o_gen (snd e)) = pr_find pr (o_gen (snd e))) -> run (with_find pr f) c es = run pr c es.
Proof.
  revert c. induction es as [|e es IH]; intros c H; [reflexivity|]. cbn [run]. rewrite step_find by (apply H; left; reflexivity).
  destruct (step pr c e); cbn [bind]; try reflexivity. apply IH. intros e' He. apply H. right. exact He.
Qed.
Definition seen (es : list (event * orc)) (v : Z) : bool := existsb (fun e => o_gen (snd e) =? v) es.
Definition only (pr : params) (es : list (event * orc)) : params := with_find pr (fun v => if seen es v then pr_find pr v else fun _ => None).
Lemma run_only pr c es : run (only pr es) c es = run pr c es.
Proof.
  apply run_find. intros e He. replace (seen es (o_gen (snd e))) with true; [reflexivity|]. symmetry. apply existsb_exists. exists e.
  split; [exact He|apply Z.eqb_refl].
Qed.
Lemma gen_only pr es k a : gen (only pr es) k a -> exists e, In e es /\ genuine (pr_p pr) (pr_md5 pr) (pr_find pr (o_gen (snd e))) k a.
Proof.
  intros (v & G). cbn [only with_find pr_p pr_md5 pr_find] in G. destruct (seen es v) eqn:S.
  - apply existsb_exists in S as (e & He & V). apply Z.eqb_eq in V. subst v. exists e. auto.
  - exfalso. destruct G as [_ G]. destruct (pr_p pr); destruct G as [G _]; discriminate.
Qed.

(** ** C50 *)
(** Whatever is processed, and whatever is sent except login answers and the ticker's terminate
    request, comes after a login that took effect; that login's packet arrived before and carried
    the credentials of an account that was in the store at some moment of the run (the store may
    be reloaded between any two steps). *)
Theorem C50_served : forall pr now es c, segs_ok es -> run pr (opened now) es = Ok c ->
  forall l1 o l2, sc_log c = l1 ++ o :: l2 ->
    (exists k r, o = OServe k r) \/ (exists kd b, o = OOut kd b /\ served_kind kd = true) ->
  exists k a x y z, l1 = x ++ OGot k :: y ++ OLogin k a :: z /\
    exists e, In e es /\ genuine (pr_p pr) (pr_md5 pr) (pr_find pr (o_gen (snd e))) k a.
Proof.
  intros pr now es c Hs R l1 o l2 E Ho. rewrite <- run_only in R. pose proof (auth_run (only pr es) es _ _ Hs (auth_opened _ now) R) as (_ & G & _).
  assert (L : logged l1).
  { specialize (G _ _ _ E). destruct Ho as [(k & r & ->)|(kd & b & -> & S)]; cbn [ok_after] in G; [apply G|auto]. }
  destruct L as (k & a & L). apply in_split in L as (x & z & ->).
  assert (E' : sc_log c = x ++ OLogin k a :: (z ++ o :: l2)) by (rewrite E, <- app_assoc; reflexivity).
  destruct (G _ _ _ E') as [I1 I2]. apply in_split in I1 as (x1 & y & ->). exists k, a, x1, y, z. split; [|apply gen_only; exact I2].
  rewrite <- app_assoc. reflexivity.
Qed.

(** As long as no login took effect, a request other than a login closes the connection:
    no goroutine is started, nothing is queued or written, ... *)
Theorem C50_refused : forall pr now es c seg o k rest h, segs_ok es -> run pr (opened now) es = Ok c ->
  sc_open c = true -> ~ logged (sc_log c) ->
  DecodeAndCheckHeader (pr_p pr) (pr_drain pr) (sc_buf c ++ seg) = Ok (FPass k rest) ->
  In h (handlers (pr_p pr)) -> h <> HLogin -> handler_cmd (pr_p pr) h = pk_cmd k ->
  exists c', step pr c (ERecv seg, o) = Ok c' /\ sc_open c' = false /\ sc_tasks c' = sc_tasks c /\ sc_queue c' = [] /\
    sc_log c' = sc_log c ++ [OGot k; OClose].
Proof.
  intros pr now es c seg o k rest h Hs R O NL F Hin Hn Hc.
  pose proof (auth_run pr es _ _ Hs (auth_opened pr now) R) as (_ & _ & _ & _ & S).
  assert (X : se_stat (sc_sess c) <> StatLogin) by (intros X; apply NL, S, X).
  cbn [step]. unfold on_recv. rewrite O. cbn [negb]. unfold OnTraffic. rewrite F. cbn [bind].
  assert (A : act pr o h k c = Ok (AClose, note c (OGot k))).
  { unfold act. cbv zeta. change (sc_sess (note c (OGot k))) with (sc_sess c). unfold sessionCheck.
    destruct h; try congruence; destruct (se_stat (sc_sess c)); try congruence; reflexivity. }
  assert (CH : forall hs, NoDup (map (handler_cmd (pr_p pr)) hs) -> In h hs -> ExecuteChain (pr_p pr) (act pr o) hs k c = Ok (AClose, note c (OGot k))).
  { induction hs as [|h0 hs IH]; [intros _ []|]; intros ND [->|Hi].
    - cbn [ExecuteChain]. unfold handler. rewrite Hc, Z.eqb_refl. cbn [negb]. rewrite A. reflexivity.
    - cbn [ExecuteChain]. unfold handler. cbn [map] in ND. inversion ND as [|? ? N1 N2]; subst.
      replace (handler_cmd (pr_p pr) h0 =? pk_cmd k) with false.
      2:{ symmetry. apply Z.eqb_neq. intros E. apply N1. rewrite E, <- Hc. apply in_map. exact Hi. }
      cbn [negb bind]. apply IH; assumption. }
  rewrite CH; [|apply handlers_nodup|exact Hin]. cbn [bind].
  eexists. split; [reflexivity|]. unfold OnClose. cbn [with_buf note sc_open]. rewrite O. cbn [negb].
  unfold closeResource. destruct (se_win _); cbn [with_chans with_sess note sc_open sc_tasks sc_queue sc_log with_buf]; rewrite <- app_assoc; auto.
Qed.
(** ... and nothing is written ever after. *)
Theorem C50_silent : forall pr c es c', sc_open c = false -> run pr c es = Ok c' -> sc_open c' = false /\ sc_log c' = sc_log c.
Proof.
  intros pr c es. revert c. induction es as [|[e o] es IH]; intros c c' O E; cbn [run] in E; [injection E as <-; auto|].
  apply bind_ok in E as (c1 & E1 & E2). assert (X : sc_open c1 = false /\ sc_log c1 = sc_log c).
  { destruct e as [seg|i| | |]; cbn [step] in E1.
    - unfold on_recv in E1. rewrite O in E1. injection E1 as <-. auto.
    - injection E1 as <-. destruct (nth_error (sc_tasks c) i) as [[j q]|] eqn:N; [|unfold on_task; rewrite N; auto].
      destruct (on_task_step pr o i c j q N); auto; unfold try_send, try_recv;
      repeat match goal with |- context [if ?b then _ else _] => destruct b end; auto.
    - unfold on_write in E1. rewrite O in E1. injection E1 as <-. auto.
    - injection E1 as <-. unfold on_tick. rewrite O. auto.
    - injection E1 as <-. unfold OnClose. rewrite O. auto. }
  destruct X as [X1 X2]. destruct (IH c1 c' X1 E2) as [Y1 Y2]. split; [exact Y1|]. rewrite Y2. exact X2.
Qed.

(** ** A CMPP server with one account; a client logs in and sends an active test (followed by a
    stray byte, so that it has a body). *)
Definition md5_demo (x : bytes) : bytes := firstn 16 (x ++ repeat 0 16).
Definition find_demo (n : bytes) : option authconf := if beqb n (ac_ClientId ac_demo) then Some ac_demo else None.
Definition pr_demo : params := Params P_CMPP true md5_demo (fun b => Some b) (fun _ => find_demo) true 1000000000000.
Definition orc0 : orc := Orc true true true 5 false false 1 2 3 (1, 2, 3) (repeat 0 10) (repeat 0 10) (repeat 48 10) (repeat 48 10) (repeat 48 10) 0 0 (fun _ => 0) None 0.
Definition get {A} (d : A) (r : res A) : A := match r with Ok x => x | _ => d end.
Definition login_demo : bytes := get [] (Connect_Encode (NewConnect md5_demo ac_demo 9 (TimeStamp2Str 1116120000) 1116120000)).
Definition active_demo : bytes := get [] (head_Encode (NewActiveTest 10)).
Definition es_demo := map (fun e => (e, orc0)) [ERecv login_demo; ETask 0; EWrite; ERecv (active_demo ++ [0]); ETask 0; ETask 0; ETask 0; EWrite].
(** the shape of a log: 1 packet got, 2 served, 3 login took effect, 4 login answer written, 5 active test answer written, 6 anything else written, 7 closed *)
Definition shape (l : list obs) : list Z :=
  map (fun o => match o with OGot _ => 1 | OServe _ _ => 2 | OLogin _ _ => 3 | OOut (KLogin _ _) _ => 4 | OOut (KActive _) _ => 5 | OOut _ _ => 6 | OClose => 7 end) l.
Example C50_served_ex : exists c, run pr_demo (opened 0) es_demo = Ok c /\ shape (sc_log c) = [1; 4; 3; 1; 2; 5] /\ sc_open c = true /\ segs_ok es_demo.
Proof.
  destruct (run pr_demo (opened 0) es_demo) as [c| |] eqn:E; [|vm_compute in E; discriminate|vm_compute in E; discriminate].
  exists c. split; [reflexivity|]. assert (X : match run pr_demo (opened 0) es_demo with Ok c => beqb (shape (sc_log c)) [1; 4; 3; 1; 2; 5] && sc_open c | _ => false end = true) by (vm_compute; reflexivity).
  rewrite E in X. apply andb_prop in X as [X1 X2]. split; [apply beqb_iff; exact X1|]. split; [exact X2|].
  unfold segs_ok. assert (Y : forall seg, bytes_ok seg <-> forallb (fun b => (0 <=? b) && (b <? 256)) seg = true).
  { intros seg. unfold bytes_ok. rewrite forallb_forall, Forall_forall. unfold is_byte. split; intros K x Hx; specialize (K x Hx); lia. }
  unfold es_demo. cbn [map]. repeat (apply Forall_cons; [cbn [fst]; first [exact I | apply Y; vm_compute; reflexivity]|]). apply Forall_nil.
Qed.
(** Without a login the same active test closes the connection. *)
Example C50_refused_ex : forall c, step pr_demo (opened 0) (ERecv (active_demo ++ [0]), orc0) = Ok c -> shape (sc_log c) = [1; 7] /\ sc_open c = false.
Proof. intros c E. vm_compute in E. injection E as <-. split; reflexivity. Qed.
Print Assumptions C50_served.
Print Assumptions C50_refused.
Print Assumptions C50_silent.

(** * PropPong: the server answers each heartbeat and each request to end the session (C107). *)
From Verif Require Import Base UtilsModel OptionsModel SpecText SpecWire SpecFrame CmppModel PropCmpp CmppBuildProofs SgipModel SmgpModel
  FrameModel SpecServer ServerModel ServerProofs PropServer PropWindow PropResponses PropCmpp2 PropAnswers.
From Verif Require PropAck PropPanics.

(** ** Specification *)
(** The answer the protocols ask for.  CMPP: an active test (8) is answered with one reserved octet, a
    terminate (2) with an empty body.  SGIP: an unbind (2) is answered under its own sequence number,
    whose last eight octets stand at the start of what follows the first.  SMGP: active test (4) and
    exit (6) are answered with empty bodies.  Nothing else is a heartbeat or a request to end. *)
Definition asked (p : proto) (k : packet) : option bytes :=
  match p with
  | P_CMPP => if pk_cmd k =? 8 then Some (wire_of (2 ^ 31 + 8) (pk_seq k) [0])
              else if pk_cmd k =? 2 then Some (wire_of (2 ^ 31 + 2) (pk_seq k) []) else None
  | P_SGIP => if pk_cmd k =? 2 then Some (wire_of (2 ^ 31 + 2) (pk_seq k) (firstn 8 (pk_body k))) else None
  | P_SMGP => if pk_cmd k =? 4 then Some (wire_of (2 ^ 31 + 4) (pk_seq k) [])
              else if pk_cmd k =? 6 then Some (wire_of (2 ^ 31 + 6) (pk_seq k) []) else None
  end.
Definition is_bye (p : proto) (k : packet) : Prop := pk_cmd k = match p with P_SMGP => 6 | _ => 2 end.
(** an answer to it was written; waits in the write queue; a goroutine has it in hand *)
Definition to_it (k : packet) (kd : okind) : bool := match kd with KActive k' | KTerm k' => same_pk k k' | _ => false end.
Definition replied (k : packet) (o : obs) : bool := match o with OOut kd _ => to_it k kd | _ => false end.
Definition waits (k : packet) (it : item) : bool := to_it k (fst (fst it)).
Definition in_hand (k : packet) (t : task) : bool :=
  match t with
  | (JActive k' _, q) | (JTerm k' _, q) => same_pk k k' && match q with PStart | PSend _ | PWork => true | _ => false end
  | _ => false
  end.

(** ** What is written *)
Section Pong.
Variable pr : params.
Definition right_one (kd : okind) (b : bytes) : Prop :=
  match kd with
  | KActive k => asked (pr_p pr) k = Some b /\ ~ is_bye (pr_p pr) k
  | KTerm k => asked (pr_p pr) k = Some b /\ is_bye (pr_p pr) k
  | _ => True
  end.
Definition job_right (j : job) : Prop :=
  match j with
  | JActive k x => exists b, active_answer (pr_p pr) x = Ok b /\ right_one (KActive k) b
  | JTerm k x => exists b, term_answer (pr_p pr) x = Ok b /\ right_one (KTerm k) b
  | _ => True
  end.
Definition right_item (it : item) : Prop := right_one (fst (fst it)) (snd (fst it)) /\ (forall k, fst (fst it) = KTerm k -> snd it = CbTerm).
Definition ended (o : obs) : Prop := exists k b, o = OOut (KTerm k) b.
Definition right (c : sconn) : Prop :=
  bytes_ok (sc_buf c) /\ (forall t, In t (sc_tasks c) -> job_right (fst t)) /\ (forall it, In it (sc_queue c) -> right_item it) /\
  (forall kd b, In (OOut kd b) (sc_log c) -> right_one kd b) /\ (forall k b, In (OOut (KTerm k) b) (sc_log c) -> sc_wish c = true).

Lemma right_note c o : right c -> (forall kd b, o <> OOut kd b) -> right (note c o).
Proof.
  intros (A & B & C & D & E) N. split; [exact A|]. split; [exact B|]. split; [exact C|]. cbn [note sc_log sc_wish]. split.
  - intros kd b H. apply in_app_or in H as [H|[H|[]]]; [auto|exfalso; exact (N _ _ H)].
  - intros k b H. apply in_app_or in H as [H|[H|[]]]; [eauto|exfalso; exact (N _ _ H)].
Qed.
Lemma right_tasks c ts : right c -> (forall t, In t ts -> job_right (fst t)) -> right (with_tasks c ts).
Proof. intros (A & B & C & D) H. split; [exact A|]. split; [exact H|]. split; assumption. Qed.
Lemma right_spawn c j : right c -> job_right j -> right (spawn c j).
Proof. intros H J. apply right_tasks; [exact H|]. intros t Ht. apply in_app_or in Ht as [Ht|[<-|[]]]; [|exact J]. apply H. exact Ht. Qed.
Lemma right_buf c b : right c -> bytes_ok b -> right (with_buf c b).
Proof. intros (A & B & C & D) H. split; [exact H|]. split; [exact B|]. split; assumption. Qed.
Lemma right_items c its : right c -> (forall it, In it its -> right_item it) -> right (with_queue c (sc_queue c ++ its)).
Proof. intros (A & B & C & D) H. split; [exact A|]. split; [exact B|]. split; [|exact D]. cbn. intros it Hi. apply in_app_or in Hi as [Hi|Hi]; auto. Qed.
Lemma right_sess c s w ch : right c -> (sc_wish c = true -> w = true) -> right (SConn (sc_buf c) (sc_open c) s ch (sc_tasks c) (sc_queue c) w (sc_log c)).
Proof. intros (A & B & C & D & E) H. split; [exact A|]. split; [exact B|]. split; [exact C|]. split; [exact D|]. cbn. eauto. Qed.
Lemma right_close c : right c -> right (OnClose c).
Proof.
  intros H. unfold OnClose. destruct (negb (sc_open c)); [exact H|]. apply right_note; [|discriminate]. destruct H as (A & B & C & D & E).
  split; [exact A|]. split; [exact B|]. split; [intros it []|]. split; [exact D|exact E].
Qed.
Lemma right_job o j it : item_of pr o j it -> job_right j -> right_item it.
Proof.
  intros H J. destruct H; cbn [job_right] in J; unfold right_item; cbn [fst snd right_one]; try (split; [exact Logic.I|intros; discriminate]).
  - destruct J as (b' & E & X). replace b with b' by congruence. split; [exact X|intros; discriminate].
  - destruct J as (b' & E & X). replace b with b' by congruence. split; [exact X|reflexivity].
Qed.
Lemma right_decode h k j : bytes_ok (pk_body k) -> In h (handlers (pr_p pr)) -> handler_cmd (pr_p pr) h = pk_cmd k -> decode_other (pr_p pr) h k = Ok j -> job_right j.
Proof.
  intros B Hin Hc D. unfold job_right, right_one, asked, is_bye. destruct (pr_p pr), h; cbn [handlers handler_cmd decode_other] in *;
    apply bind_ok in D as (x & X & D); injection D as <-; try exact Logic.I; rewrite <- Hc; cbn [Z.eqb Pos.eqb];
    try (injection X as <-; cbn [active_answer term_answer]; eexists; (split; [first [apply PropAck.x_active|apply PropAck.x_head|apply PropAck.x_smhead]|split; [reflexivity|lia]])).
  unfold Unbind_Decode in X. apply bind_ok in X as (y & Y & X). apply bind_ok in X as (z & Z & X). injection X as <-.
  exists (wire_of (2 ^ 31 + 2) (pk_seq k) (firstn 8 (pk_body k))). split; [|split; reflexivity]. cbn [term_answer]. unfold Unbind_ToResponse. cbn [sh_len sh_seq].
  rewrite PropAck.x_shead. f_equal. f_equal.
  pose proof (be_slice (pk_body k) 0 4 4 y B Y eq_refl) as U1. pose proof (be_slice (pk_body k) 4 8 4 z B Z eq_refl) as U2.
  apply slice_val in U1, U2. change (Z.to_nat (4 - 0)) with 4%nat in U1. change (Z.to_nat (8 - 4)) with 4%nat in U2. change (Z.to_nat 0) with 0%nat in U1. change (Z.to_nat 4) with 4%nat in U2.
  rewrite U1, U2, skipn_O, (firstn_skipn_comm 4 4 (pk_body k)). change (4 + 4)%nat with 8%nat. rewrite <- (firstn_skipn 4 (firstn 8 (pk_body k))) at 2. rewrite firstn_firstn. reflexivity.
Qed.
Lemma right_task o i c : right c -> right (on_task pr o i c).
Proof.
  intros H. destruct (nth_error (sc_tasks c) i) as [[j q]|] eqn:N; [|unfold on_task; rewrite N; exact H].
  assert (HT : forall t, In t (sc_tasks c) -> job_right (fst t)) by apply H.
  assert (J : job_right j) by (apply (HT (j, q)); eapply nth_error_In; eauto).
  assert (UU : forall q', right (with_tasks c (upd (sc_tasks c) i (j, q')))).
  { intros q'. apply right_tasks; [exact H|]. intros t Ht. apply (in_upd _ _ _ _ _ N) in Ht as [->|Ht]; auto. }
  assert (V : right (with_tasks c (del (sc_tasks c) i))) by (apply right_tasks; [exact H|]; intros t Ht; apply in_del in Ht; auto).
  assert (P : forall its ts, right (with_tasks c ts) -> (forall it, In it its -> item_of pr o j it) -> right (put c its ts)).
  { intros its ts A B. apply (right_items (with_tasks c ts) its); [exact A|]. intros it Hit. eapply right_job; eauto. }
  assert (CH : forall d l, right d -> right (with_chans d l)) by (intros d l X; exact X).
  destruct (on_task_step pr o i c j q N) as [W F|Ej|it W I1 C1|g W Q|W Q S|W Q|k r it code a Ej Eq I1 C1 Ec Ek Ea|s' its w W Eq Nj SS It Wi|its a k Eq W It|g W Q|W Q]; auto.
  - apply P; [exact V|]. intros x [<-|[]]. exact I1.
  - unfold try_send. destruct (ch_closed _); [exact V|]. destruct (_ <? _); [|apply UU]. apply CH, UU.
  - apply P; [apply UU|]. intros x [<-|[]]. exact I1.
  - assert (M : right (put c its (upd (sc_tasks c) i (j, PRelease)))).
    { apply P; [apply UU|]. intros x Hx. destruct It as [->|(it & -> & I1 & _)]; [destruct Hx|]. destruct Hx as [<-|[]]. exact I1. }
    exact (right_sess (put c its (upd (sc_tasks c) i (j, PRelease))) s' w (sc_chans c) M Wi).
  - apply P; [apply UU|]. intros x Hx. destruct It as [->|(it & -> & I1 & _)]; [destruct Hx|]. destruct Hx as [<-|[]]. exact I1.
  - unfold try_recv. destruct (_ <? _); [apply CH; exact V|]. destruct (ch_closed _); [exact V|apply UU].
Qed.
Lemma right_write o c c' : right c -> on_write o c = Ok c' -> right c'.
Proof.
  intros H E. unfold on_write in E. destruct (sc_open c); [|injection E as <-; exact H].
  destruct (sc_queue c) as [|[[kd b] f] r] eqn:Q; [injection E as <-; exact H|].
  destruct H as (A & B & C & D & F). assert (IF : right_item (kd, b, f)) by (apply C; rewrite Q; left; reflexivity).
  assert (CR : forall it, In it r -> right_item it) by (intros it Hi; apply C; rewrite Q; right; exact Hi).
  destruct IF as [IF1 IF2]. cbn [fst snd] in IF1, IF2.
  assert (LF : forall x y, In (OOut x y) (sc_log c ++ [OOut kd b]) -> right_one x y).
  { intros x y Hx. apply in_app_or in Hx as [Hx|[Hx|[]]]; [auto|]. injection Hx as <- <-. exact IF1. }
  set (c1 := note (with_queue c r) (OOut kd b)) in *.
  assert (K : forall s ch w, (sc_wish c = true -> w = true) -> (forall k, kd = KTerm k -> w = true) -> right (SConn (sc_buf c1) (sc_open c1) s ch (sc_tasks c1) (sc_queue c1) w (sc_log c1))).
  { intros s ch w W1 W2. split; [exact A|]. split; [exact B|]. split; [exact CR|]. split; [exact LF|]. cbn [sc_log sc_wish c1 note with_queue].
    intros k x Hx. apply in_app_or in Hx as [Hx|[Hx|[]]]; [eauto|]. injection Hx as -> _. eapply W2. reflexivity. }
  destruct (match kd with KTerm _ => true | _ => false end) eqn:KT.
  - destruct kd; try discriminate KT. assert (f = CbTerm) as -> by (eapply IF2; reflexivity). cbn [callback] in E. injection E as <-. apply K; auto.
  - assert (NT : forall k, kd <> KTerm k) by (intros k ->; discriminate KT). assert (NW : forall k, kd = KTerm k -> sc_wish c = true) by (intros k X; exfalso; exact (NT k X)).
    assert (NX : forall k, kd = KTerm k -> true = true) by reflexivity.
    destruct f; cbn [callback] in E; try (injection E as <-; first [exact (K _ _ (sc_wish c) (fun x => x) NW)|exact (K _ _ true (fun _ => eq_refl) NX)]).
    + destruct ac as [ac|]; destruct (code =? 0); try discriminate; try (injection E as <-; exact (K _ _ true (fun _ => eq_refl) NX)).
      apply bind_ok in E as (c2 & E2 & E). injection E as <-. unfold completeLogin in E2. destruct (_ <? 0) eqn:WN; [discriminate|]. injection E2 as <-.
      apply right_note; [|discriminate]. exact (K _ _ (sc_wish c) (fun x => x) NW).
    + destruct (code =? 0); injection E as <-; exact (K _ _ (sc_wish c) (fun x => x) NW).
Qed.
Lemma right_step c e c' : right c -> (match fst e with ERecv s => bytes_ok s | _ => True end) -> step pr c e = Ok c' -> right c'.
Proof.
  intros H HS E. destruct e as [[seg|i| | |] o]; cbn [step fst snd] in *.
  - apply on_recv_step in E. assert (BO : bytes_ok (sc_buf c ++ seg)) by (apply Forall_app; split; [apply H|exact HS]).
    destruct E as [O1|O1 F|O1 F|k rest O1 F N|k rest h a c1 O1 F Hin Hc HA]; auto.
    + apply right_buf; auto.
    + apply right_close, right_buf; auto.
    + apply right_buf; auto. apply (dch_bytes _ _ _ _ _ BO F).
    + destruct (dch_bytes _ _ _ _ _ BO F) as [BB BR].
      assert (G : right (with_buf c1 rest)).
      { apply right_buf; [|exact BR]. inversion HA; subst;
          try (apply right_spawn); try (apply right_note; [|discriminate]); try (apply right_note; [|discriminate]); auto; try exact Logic.I.
        eapply right_decode; eauto. }
      destruct a; [exact G|apply right_close; exact G].
  - injection E as <-. apply right_task; auto.
  - eapply right_write; eauto.
  - injection E as <-. unfold on_tick. destruct (negb _); [exact H|]. destruct (_ || _); [destruct (o_acc o); [apply right_spawn|]; solve [exact H|exact Logic.I]|].
    destruct (se_stat (sc_sess c)); try exact H. assert (H1 : right (if o_acc o then spawn c JHeart else c)) by (destruct (o_acc o); [apply right_spawn|]; solve [exact H|exact Logic.I]).
    destruct (o_dly o); [|exact H1]. destruct (o_acc2 o); [|exact H1]. apply right_spawn; [exact H1|exact Logic.I].
  - injection E as <-. apply right_close. exact H.
Qed.
End Pong.
Lemma right_opened pr now : right pr (opened now).
Proof. split; [constructor|]. split; [intros t []|]. split; [intros t []|]. split; intros ? ? []. Qed.
Lemma right_run pr es : forall c c', segs_ok es -> right pr c -> run pr c es = Ok c' -> right pr c'.
Proof.
  induction es as [|e es IH]; intros c c' S H E; cbn [run] in E; [congruence|].
  apply bind_ok in E as (c1 & E1 & E2). apply (IH c1); auto; [exact (Forall_inv_tail S)|]. apply (right_step pr c e c1); auto. exact (Forall_inv S).
Qed.

(** ** Accounting *)
(** Requests [k] that were taken in and are neither answered nor in hand: forgotten ones. *)
Definition gone (k : packet) (c : sconn) : Z :=
  count (is_served k false) (sc_log c) - count (replied k) (sc_log c) - count (waits k) (sc_queue c) - count (in_hand k) (sc_tasks c).
Lemma gone_note k c o : gone k (note c o) = gone k c + (if is_served k false o then 1 else 0) - (if replied k o then 1 else 0).
Proof. unfold gone, note. cbn [sc_log sc_queue sc_tasks]. rewrite !count_app, !count_one. lia. Qed.
Lemma gone_spawn k c j : gone k (spawn c j) = gone k c - (if in_hand k (j, PStart) then 1 else 0).
Proof. unfold gone, spawn, with_tasks. cbn [sc_log sc_queue sc_tasks]. rewrite !count_app, !count_one. lia. Qed.
Lemma gone_close k c : gone k c <= gone k (OnClose c).
Proof.
  unfold OnClose. destruct (negb (sc_open c)); [lia|]. rewrite gone_note. cbn [is_served replied]. unfold gone. cbn [sc_log sc_queue sc_tasks closeResource with_chans with_sess].
  rewrite count_nil. pose proof (count_nonneg (waits k) (sc_queue c)). lia.
Qed.
Lemma hand_at k j q q' : (match q with PStart | PSend _ | PWork => true | _ => false end) = (match q' with PStart | PSend _ | PWork => true | _ => false end) -> in_hand k (j, q) = in_hand k (j, q').
Proof. intros E. destruct j; cbn [in_hand]; rewrite ?E; reflexivity. Qed.
Lemma hand_after k j q : (match q with PStart | PSend _ | PWork => true | _ => false end) = false -> in_hand k (j, q) = false.
Proof. intros E. destruct j; cbn [in_hand]; rewrite ?E, ?andb_false_r; reflexivity. Qed.
Lemma hand_win k j q : in_hand k (j, q) = true -> is_win j = true.
Proof. destruct j; cbn [in_hand]; intros X; try discriminate X; reflexivity. Qed.
Lemma gone_task pr o i c k : right pr c -> gone k c <= gone k (on_task pr o i c) /\ (win_ok c -> gone k (on_task pr o i c) = gone k c).
Proof.
  intros H. destruct (nth_error (sc_tasks c) i) as [[j q]|] eqn:N; [|unfold on_task; rewrite N; split; [lia|auto]].
  assert (J : job_right pr j) by (destruct H as (_ & HT & _); apply (HT (j, q)); eapply nth_error_In; eauto).
  assert (UU : forall its q', gone k (put c its (upd (sc_tasks c) i (j, q'))) = gone k c - count (waits k) its + (if in_hand k (j, q) then 1 else 0) - (if in_hand k (j, q') then 1 else 0)).
  { intros its q'. unfold gone, put. cbn [sc_log sc_queue sc_tasks]. rewrite count_app, (count_upd _ _ _ _ _ N). lia. }
  assert (V : forall its, gone k (put c its (del (sc_tasks c) i)) = gone k c - count (waits k) its + (if in_hand k (j, q) then 1 else 0)).
  { intros its. unfold gone, put. cbn [sc_log sc_queue sc_tasks]. rewrite count_app, (count_del _ _ _ _ N). lia. }
  assert (PE : forall ts, gone k (with_tasks c ts) = gone k (put c [] ts)) by (intros ts; unfold gone, put; cbn [with_tasks sc_log sc_queue sc_tasks]; rewrite app_nil_r; reflexivity).
  assert (SC : win_ok c -> se_conn (sc_sess c) = true) by (intros W; apply W).
  assert (NH : forall q', is_win j = false -> in_hand k (j, q') = false).
  { intros q' W. destruct (in_hand k (j, q')) eqn:X; [apply hand_win in X; congruence|reflexivity]. }
  assert (NQ : forall it, item_of pr o j it -> (forall k r, j <> JActive k r) -> (forall k r, j <> JTerm k r) -> count (waits k) [it] = 0).
  { intros it I1 N1 N2. rewrite count_one. destruct I1; try reflexivity; exfalso; [eapply N1|eapply N2]; reflexivity. }
  assert (SPECIAL : (exists k0 x, j = JActive k0 x \/ j = JTerm k0 x) /\ q = PWork \/ ((forall k r, j <> JActive k r) /\ (forall k r, j <> JTerm k r)) \/ q <> PWork).
  { destruct q; try (right; right; discriminate). destruct j; try (right; left; split; intros; discriminate); left; (split; [do 2 eexists; auto|reflexivity]). }
  destruct SPECIAL as [[(k0 & x & EJ) ->]|SP].
  { unfold on_task. rewrite N. assert (PN : plain_job pr o j c = None) by (destruct EJ as [-> | ->]; reflexivity). rewrite PN.
    assert (WK : exists kd b f, (work pr o j c = if se_conn (sc_sess c) then Ok (with_queue c (sc_queue c ++ [(kd, b, f)]), PRelease) else Panic) /\ to_it k kd = same_pk k k0).
    { destruct EJ as [-> | ->]; cbn [job_right] in J; destruct J as (b & AN & _); cbn [work]; rewrite AN; cbn [bind]; unfold AsyncWrite; do 3 eexists; (split; [destruct (se_conn (sc_sess c)); reflexivity|reflexivity]). }
    destruct WK as (kd & b & f & WK & KD). rewrite WK.
    assert (HI : in_hand k (j, PWork) = same_pk k k0) by (destruct EJ as [-> | ->]; cbn [in_hand]; apply andb_true_r).
    assert (HO : in_hand k (j, PRelease) = false) by (apply hand_after; reflexivity).
    destruct (se_conn (sc_sess c)).
    - change (with_tasks (with_queue c (sc_queue c ++ [(kd, b, f)])) (upd (sc_tasks (with_queue c (sc_queue c ++ [(kd, b, f)]))) i (j, PRelease))) with (put c [(kd, b, f)] (upd (sc_tasks c) i (j, PRelease))).
      rewrite UU, HI, HO, count_one. unfold waits. cbn [fst]. rewrite KD. split; [|intros _]; lia.
    - rewrite PE, UU, HO, count_nil. split; [destruct (in_hand _ _); lia|]. intros WO. specialize (SC WO). discriminate. }
  assert (EMPTY : forall it, item_of pr o j it -> q = PWork -> count (waits k) [it] = 0 /\ forall q', in_hand k (j, q') = false).
  { intros it I1 Eq. destruct SP as [[S1 S2]|S]; [|congruence]. split; [apply NQ; auto|]. intros q'. destruct j; try reflexivity; exfalso; [eapply S1|eapply S2]; reflexivity. }
  assert (NONE : q = PWork -> forall q', in_hand k (j, q') = false).
  { intros Eq q'. destruct SP as [[S1 S2]|S]; [|congruence]. destruct j; try reflexivity; exfalso; [eapply S1|eapply S2]; reflexivity. }
  destruct (on_task_step pr o i c j q N) as [W F|Ej|it W I1 C1|g W Q|W Q S|W Q|k0 r it code a Ej Eq I1 C1 Ec Ek Ea|s' its w W Eq Nj SS It Wi|its a k0 Eq W It|g W Q|W Q].
  - rewrite PE, V, count_nil, (NH _ W). split; intros; lia.
  - rewrite PE, V, count_nil. subst j. cbn [in_hand]. split; intros; lia.
  - rewrite V, (NH _ W). assert (X : count (waits k) [it] = 0) by (apply NQ; [exact I1| |]; intros k1 r1 E; subst j; discriminate W). rewrite X. split; intros; lia.
  - unfold try_send. destruct (ch_closed (get_chan c g)) eqn:CC.
    + rewrite PE, V, count_nil. split; [destruct (in_hand _ _); lia|]. intros WO. exfalso.
      destruct (win_some _ _ _ _ N WO W) as [g' G]. destruct WO as (_ & WO). rewrite G in WO. destruct WO as (_ & W2 & _ & _ & _ & W6 & _).
      specialize (W6 _ (nth_error_In _ _ N) W). destruct Q as [[_ Q]| ->]; cbn in *; congruence.
    + assert (X : forall q', (q' = PWork \/ q' = PSend g) -> in_hand k (j, q') = in_hand k (j, q)).
      { intros q' Q'. apply hand_at. destruct Q' as [-> | ->]; destruct Q as [[-> _]| ->]; reflexivity. }
      destruct (_ <? _).
      * match goal with |- context [set_chan ?d ?g1 ?y] => change (gone k (set_chan d g1 y)) with (gone k d) end. rewrite PE, UU, count_nil, (X PWork) by auto. destruct (in_hand _ _); split; intros; lia.
      * rewrite PE, UU, count_nil, (X (PSend g)) by auto. destruct (in_hand _ _); split; intros; lia.
  - rewrite PE, UU, count_nil, (hand_after k j PStuck) by reflexivity. split; [destruct (in_hand k (j, q)); lia|]. intros WO. exfalso. destruct (win_some _ _ _ _ N WO W) as [g' G]. congruence.
  - rewrite PE, UU, count_nil, (hand_after k j PRelease) by reflexivity.
    assert (X : in_hand k (j, q) = false) by (destruct Q as [[-> _]|[a ->]]; [apply NONE; reflexivity|apply hand_after; reflexivity]). rewrite X. split; intros; lia.
  - rewrite UU. destruct (EMPTY it I1 Eq) as [-> X]. rewrite !X. split; intros; lia.
  - match goal with |- context [gone k (SConn ?a1 ?a2 ?a3 ?a4 ?a5 ?a6 ?a7 ?a8)] => change (gone k (SConn a1 a2 a3 a4 a5 a6 a7 a8)) with (gone k (put c its (upd (sc_tasks c) i (j, PRelease)))) end. rewrite UU.
    rewrite !(NONE Eq). assert (Y : count (waits k) its = 0) by (destruct It as [->|(it & -> & I1 & _)]; [reflexivity|apply (EMPTY it I1 Eq)]). rewrite Y. split; intros; lia.
  - rewrite UU. assert (Y : count (waits k) its = 0) by (destruct It as [->|(b & -> & _)]; reflexivity). rewrite Y, (hand_after k j PRelease), (hand_after k j q) by (subst; reflexivity). split; intros; lia.
  - assert (X : in_hand k (j, q) = false) by (apply hand_after; destruct Q as [[-> _]| ->]; reflexivity).
    assert (D : gone k (with_tasks c (del (sc_tasks c) i)) = gone k c) by (rewrite PE, V, count_nil, X; lia).
    unfold try_recv. destruct (_ <? _); [match goal with |- context [set_chan ?d ?g1 ?y] => change (gone k (set_chan d g1 y)) with (gone k d) end; split; intros; lia|].
    destruct (ch_closed _); [split; intros; lia|]. rewrite PE, UU, count_nil, X, (hand_after k j (PRecv g)) by reflexivity. split; intros; lia.
  - split; [lia|auto].
Qed.
Lemma asked_other p h k : asked p k <> None -> In h (handlers p) -> handler_cmd p h = pk_cmd k -> h = HActive \/ h = HTerminate.
Proof.
  unfold asked. intros A Hin E. rewrite <- E in A. destruct p, h; auto; exfalso; try (apply A; reflexivity); cbn in Hin; intuition discriminate.
Qed.
Lemma decode_kind p h k j : decode_other p h k = Ok j -> h = HActive \/ h = HTerminate -> In h (handlers p) -> exists x, j = JActive k x \/ j = JTerm k x.
Proof.
  intros D [-> | ->] Hin; destruct p; cbn [decode_other] in D; apply bind_ok in D as (x & _ & D); injection D as <-; try (eexists; auto; fail). cbn in Hin. intuition discriminate.
Qed.
Lemma kind_decode p h k j k' : decode_other p h k = Ok j -> in_hand k' (j, PStart) = true -> h = HActive \/ h = HTerminate.
Proof. destruct p, h; cbn [decode_other]; intros D X; apply bind_ok in D as (x & _ & D); injection D as <-; try discriminate X; auto. Qed.
Lemma job_of p h k j k' : decode_other p h k = Ok j -> in_hand k' (j, PStart) = true -> same_pk k' k = true.
Proof. destruct p, h; cbn [decode_other]; intros D X; apply bind_ok in D as (x & _ & D); injection D as <-; try discriminate X; cbn [in_hand] in X; rewrite andb_true_r in X; exact X. Qed.
Lemma gone_step pr c e c' k : asked (pr_p pr) k <> None -> right pr c -> step pr c e = Ok c' ->
  gone k c <= gone k c' /\ (win_ok c -> sc_open c' = true -> gone k c' = gone k c).
Proof.
  intros HK H E. destruct e as [[seg|i| | |] o]; cbn [step fst snd] in *.
  - apply on_recv_step in E. assert (CL : forall y, sc_open (OnClose y) = false) by (intros y; unfold OnClose; destruct (sc_open y) eqn:X; [reflexivity|exact X]).
    destruct E as [O1|O1 F|O1 F|k0 rest O1 F N|k0 rest h a c1 O1 F Hin Hc HA]; try (split; [reflexivity|intros; reflexivity]).
    + split; [exact (gone_close k (with_buf c (sc_buf c ++ seg)))|]. intros _ X. rewrite CL in X. discriminate.
    + assert (G : gone k c1 = gone k c).
      { assert (OT : same_pk k k0 = true -> h = HActive \/ h = HTerminate).
        { intros X. apply same_pk_iff in X. subst k0. exact (asked_other _ _ _ HK Hin Hc). }
        inversion HA; subst; rewrite ?gone_spawn, ?gone_note; cbn [is_served replied Bool.eqb]; rewrite ?andb_false_r, ?andb_true_r; try (cbn [in_hand]; lia).
        - cbn [in_hand]. destruct (same_pk k k0); [destruct (OT eq_refl); discriminate|lia].
        - match goal with D : decode_other _ _ _ = Ok ?j |- _ => assert (Y : in_hand k (j, PStart) = same_pk k k0) end.
          { match goal with D : decode_other _ _ _ = Ok ?j |- _ => rename D into DD; destruct (in_hand k (j, PStart)) eqn:X end; [symmetry; exact (job_of _ _ _ _ _ DD X)|].
            destruct (same_pk k k0) eqn:X0; [|reflexivity]. specialize (OT eq_refl). destruct (decode_kind _ _ _ _ DD OT Hin) as (x & [-> | ->]); cbn [in_hand] in X; rewrite X0 in X; discriminate X. }
          rewrite Y. destruct (same_pk k k0); lia. }
      assert (GB : gone k (with_buf c1 rest) = gone k c1) by reflexivity.
      destruct a; cbn [closing].
      * rewrite GB. split; [lia|auto].
      * pose proof (gone_close k (with_buf c1 rest)). split; [lia|]. intros _ X. rewrite CL in X. discriminate.
  - injection E as <-. exact (match gone_task pr o i c k H with conj A B => conj A (fun W _ => B W) end).
  - assert (X : gone k c' = gone k c); [|split; [lia|auto]].
    unfold on_write in E. destruct (sc_open c); [|injection E as <-; reflexivity].
    destruct (sc_queue c) as [|[[kd b] f] r] eqn:Q; [injection E as <-; reflexivity|].
    assert (X : gone k (note (with_queue c r) (OOut kd b)) = gone k c).
    { rewrite gone_note. unfold gone. cbn [with_queue sc_log sc_queue sc_tasks]. rewrite Q, count_cons. unfold waits at 2. cbn [fst is_served replied]. lia. }
    rewrite <- X. set (c1 := note _ _) in *. clearbody c1.
    destruct f; cbn [callback] in E; try (injection E as <-; reflexivity).
    + destruct ac as [ac|]; destruct (code =? 0); try discriminate; try (injection E as <-; reflexivity).
      apply bind_ok in E as (c2 & E2 & E). injection E as <-. unfold completeLogin in E2. destruct (_ <? 0) eqn:WN; [discriminate|]. injection E2 as <-.
      rewrite gone_note. cbn [is_served replied]. unfold gone. cbn [with_chans with_sess closeResource sc_log sc_queue sc_tasks]. lia.
    + destruct (code =? 0); injection E as <-; reflexivity.
  - injection E as <-. assert (X : gone k (on_tick pr o c) = gone k c); [|split; [lia|auto]].
    unfold on_tick. destruct (negb _); [reflexivity|]. destruct (_ || _); [destruct (o_acc o); [rewrite gone_spawn; cbn; lia|reflexivity]|].
    destruct (se_stat (sc_sess c)); try reflexivity. assert (H1 : gone k (if o_acc o then spawn c JHeart else c) = gone k c) by (destruct (o_acc o); [rewrite gone_spawn; cbn; lia|reflexivity]).
    destruct (o_dly o); [|exact H1]. destruct (o_acc2 o); [|exact H1]. rewrite gone_spawn. cbn [in_hand]. lia.
  - injection E as <-. split; [apply gone_close|]. intros _ X. unfold OnClose in X. destruct (sc_open c) eqn:Y; cbn [negb] in X; [discriminate|congruence].
Qed.
Lemma gone_run_le pr es k : asked (pr_p pr) k <> None -> forall c c', segs_ok es -> right pr c -> run pr c es = Ok c' -> gone k c <= gone k c'.
Proof.
  intros HK. induction es as [|e es IH]; intros c c' S F E; cbn [run] in E; [injection E as <-; lia|].
  apply bind_ok in E as (c1 & E1 & E2). destruct (gone_step pr c e c1 k HK F E1) as [A _].
  assert (F1 : right pr c1) by (apply (right_step pr c e c1); auto; exact (Forall_inv S)).
  specialize (IH c1 c' (Forall_inv_tail S) F1 E2). lia.
Qed.
Lemma gone_run_eq pr es k : asked (pr_p pr) k <> None -> forall c c', segs_ok es -> right pr c -> win_ok c -> calm pr c es -> run pr c es = Ok c' -> sc_open c' = true -> gone k c' = gone k c.
Proof.
  intros HK. induction es as [|e es IH]; intros c c' S F W C E O; cbn [run calm] in *; [congruence|].
  apply bind_ok in E as (c1 & E1 & E2). rewrite E1 in C. destruct C as [C1 C2].
  assert (O1 : sc_open c1 = true) by (apply (open_back_run pr es c1 c'); auto).
  destruct (gone_step pr c e c1 k HK F E1) as [_ B]. rewrite <- B by assumption.
  apply (IH c1 c'); auto.
  - exact (Forall_inv_tail S).
  - apply (right_step pr c e c1); auto. exact (Forall_inv S).
  - apply (win_step pr c e c1); auto.
Qed.

Lemma count_pos {A} (f : A -> bool) l x : In x l -> f x = true -> 0 < count f l.
Proof. intros Hx F. pose proof (count_nonneg f l). destruct (Z.eq_dec (count f l) 0) as [E|E]; [|lia]. rewrite count_zero in E. rewrite (E _ Hx) in F. discriminate. Qed.
Lemma count_some {A} (f : A -> bool) l : 0 < count f l -> exists x, In x l /\ f x = true.
Proof.
  induction l as [|x l IH]; [cbn; lia|]. rewrite count_cons. destruct (f x) eqn:E; [intros _; exists x; split; [left; reflexivity|exact E]|].
  intros H. destruct IH as (y & H1 & H2); [lia|]. exists y. split; [right; exact H1|exact H2].
Qed.

(** ** Theorems *)
(** C107, everything that holds of every run whatever happens: each answer written is exactly the
    octets the request asks for; the request did arrive; it is answered at most once; and once a request
    to end is answered the connection is being closed. *)
Theorem C107_answers : forall pr now es c, segs_ok es -> run pr (opened now) es = Ok c ->
  (forall k, asked (pr_p pr) k <> None -> count (replied k) (sc_log c) <= count (is_served k false) (sc_log c)) /\
  (forall k kd b, In (OOut kd b) (sc_log c) -> kd = KActive k \/ kd = KTerm k ->
     asked (pr_p pr) k = Some b /\ (kd = KTerm k <-> is_bye (pr_p pr) k) /\ In (OServe k false) (sc_log c) /\ (is_bye (pr_p pr) k -> sc_wish c = true)).
Proof.
  intros pr now es c S R. assert (F : right pr c) by (apply (right_run pr es (opened now)); auto; apply right_opened).
  assert (LE : forall k, asked (pr_p pr) k <> None -> count (replied k) (sc_log c) <= count (is_served k false) (sc_log c)).
  { intros k HK. pose proof (gone_run_le pr es k HK _ _ S (right_opened pr now) R) as L. unfold gone in L. cbn [opened sc_log sc_queue sc_tasks] in L. rewrite !count_nil in L.
    pose proof (count_nonneg (waits k) (sc_queue c)). pose proof (count_nonneg (in_hand k) (sc_tasks c)). lia. }
  split; [exact LE|]. intros k kd b Hin HK. destruct F as (_ & _ & _ & F & FW). specialize (F _ _ Hin).
  assert (A : asked (pr_p pr) k = Some b /\ (kd = KTerm k <-> is_bye (pr_p pr) k)).
  { destruct HK as [-> | ->]; cbn [right_one] in F; destruct F as [F1 F2]; (split; [exact F1|split; intros X; [try discriminate X; assumption|try reflexivity; exfalso; exact (F2 X)]]). }
  destruct A as [A1 A2]. split; [exact A1|]. split; [exact A2|]. split.
  - assert (NN : asked (pr_p pr) k <> None) by congruence. specialize (LE k NN).
    assert (P : exists o, In o (sc_log c) /\ is_served k false o = true).
    { assert (Q : 0 < count (replied k) (sc_log c)) by (apply (count_pos _ _ (OOut kd b) Hin); cbn [replied]; assert (same_pk k k = true) by (apply same_pk_iff; reflexivity); destruct HK as [-> | ->]; assumption).
      apply count_some. lia. }
    destruct P as (o & Ho & Hs). destruct o; try discriminate Hs. cbn [is_served] in Hs. apply andb_prop in Hs as [H1 H2]. apply same_pk_iff in H1. apply eqb_prop in H2. subst. exact Ho.
  - intros B. apply A2 in B. subst kd. exact (FW _ _ Hin).
Qed.
(** C107, no request is forgotten: on an open connection every heartbeat and every request to end taken
    in so far is answered, or its answer is queued, or a goroutine has it in hand - in calm runs (at
    most one login suffices, see [once_calm]). *)
Theorem C107_partial : forall pr now es c, segs_ok es -> run pr (opened now) es = Ok c -> sc_open c = true -> calm pr (opened now) es ->
  forall k, asked (pr_p pr) k <> None ->
  count (is_served k false) (sc_log c) = count (replied k) (sc_log c) + count (waits k) (sc_queue c) + count (in_hand k) (sc_tasks c).
Proof.
  intros pr now es c S R O C k HK.
  pose proof (gone_run_eq pr es k HK _ _ S (right_opened pr now) (win_opened now) C R O) as L.
  unfold gone in L. cbn [opened sc_log sc_queue sc_tasks] in L. rewrite !count_nil in L. lia.
Qed.
(** C107, and every one can be answered: from every such state the goroutines and the event loop,
    without any new input, can finish their work, and then each request has exactly one answer. *)
Theorem C107_finishes : forall pr now es c o, segs_ok es -> (forall v n a, pr_find pr v n = Some a -> 1 <= ac_MtWindowSize a) -> zlen (o_id o) = 10 ->
  run pr (opened now) es = Ok c -> sc_open c = true -> calm pr (opened now) es ->
  exists es' c', Forall worker es' /\ run pr c es' = Ok c' /\ sc_open c' = true /\ sc_tasks c' = [] /\ sc_queue c' = [] /\
    forall k, asked (pr_p pr) k <> None -> count (replied k) (sc_log c') = count (is_served k false) (sc_log c') /\
      count (is_served k false) (sc_log c) <= count (is_served k false) (sc_log c').
Proof.
  intros pr now es c o S HW Hi R O C.
  pose proof (win_run pr es _ _ (win_opened now) R O C) as W. pose proof (auth_run pr es _ _ S (auth_opened pr now) R) as A.
  destruct (finish_tasks pr o Hi _ c (Nat.le_refl _) W) as (e1 & c1 & A1 & A2 & A3 & A4 & A5 & A6 & A7).
  { intros NW. unfold window_size. destruct W as (_ & W). destruct (se_win (sc_sess c)) as [g|] eqn:Q.
    - destruct W as (_ & _ & _ & _ & _ & _ & a & -> & _ & _ & k & Hk). apply in_split in Hk as (l1 & l2 & E). destruct A as (_ & G & _).
      specialize (G _ _ _ E). destruct G as [_ G]. destruct (gen_found _ _ _ G) as (v & n & Hn). eauto.
    - congruence. }
  destruct (worker_ok _ A1) as [S1 T1].
  destruct (finish_queue pr o Hi (fun v n a H => Z.le_trans 0 1 _ ltac:(lia) (HW v n a H)) _ c1 eq_refl A5) as (e2 & c2 & B1 & B2 & B3 & B4 & B5 & B6 & B7).
  { apply (auth_run pr e1 c c1); auto. } { congruence. }
  destruct (worker_ok _ B1) as [S2 T2].
  exists (e1 ++ e2), c2. split; [apply Forall_app; auto|]. split; [rewrite (app_run pr e1 e2 c c1 A3); exact B3|]. split; [exact B7|]. split; [exact B5|]. split; [exact B6|].
  intros k HK. split.
  - assert (Q : count (is_served k false) (sc_log c2) = count (replied k) (sc_log c2) + count (waits k) (sc_queue c2) + count (in_hand k) (sc_tasks c2)).
    { apply (C107_partial pr now (es ++ e1 ++ e2)); auto.
      - apply Forall_app; split; [exact S|apply Forall_app; auto].
      - rewrite (app_run pr es _ _ c R), (app_run pr e1 e2 c c1 A3). exact B3.
      - apply (app_calm pr es _ _ c R C). apply (app_calm pr e1 e2 c c1 A3 A4 B4). }
    rewrite B5, B6, !count_nil in Q. lia.
  - assert (G : grows c c2) by (apply (log_run pr (e1 ++ e2)); rewrite (app_run pr e1 e2 c c1 A3); exact B3). destruct G as [l ->]. rewrite count_app.
    pose proof (count_nonneg (is_served k false) l). lia.
Qed.
(** C107: a heartbeat or a request to end that arrives on a logged-in session is taken in, and the
    connection stays open; it is not counted by the rate limiter.  (An SGIP unbind has at least eight
    octets behind the first twelve; [C105] says what a shorter one does.) *)
Theorem C107_received : forall pr now es c seg o k rest, run pr (opened now) es = Ok c -> calm pr (opened now) es -> sc_open c = true ->
  se_stat (sc_sess c) = StatLogin -> DecodeAndCheckHeader (pr_p pr) (pr_drain pr) (sc_buf c ++ seg) = Ok (FPass k rest) ->
  asked (pr_p pr) k <> None -> (pr_p pr = P_SGIP -> 8 <= zlen (pk_body k)) -> o_acc o = true ->
  exists c', step pr c (ERecv seg, o) = Ok c' /\ sc_open c' = true /\ sc_log c' = sc_log c ++ [OGot k; OServe k false] /\
    count (in_hand k) (sc_tasks c') = count (in_hand k) (sc_tasks c) + 1 /\ sc_queue c' = sc_queue c /\ sc_sess c' = sc_sess c.
Proof.
  intros pr now es c seg o k rest R C O ST F HK LG AC. pose proof (win_run pr es _ _ (win_opened now) R O C) as W.
  assert (RS : se_res (sc_sess c) = true).
  { destruct W as (_ & W). destruct (se_win (sc_sess c)); [apply W|]. destruct W as (_ & W & _). congruence. }
  assert (HH : exists h j, In h (handlers (pr_p pr)) /\ handler_cmd (pr_p pr) h = pk_cmd k /\ decode_other (pr_p pr) h k = Ok j /\ h <> HLogin /\ h <> HSubmit /\ exists x, j = JActive k x \/ j = JTerm k x).
  { unfold asked in HK. destruct (pr_p pr) eqn:P.
    - destruct (pk_cmd k =? 8) eqn:E8; [apply Z.eqb_eq in E8; exists HActive|destruct (pk_cmd k =? 2) eqn:E2; [apply Z.eqb_eq in E2; exists HTerminate|congruence]];
        eexists; (split; [cbn; tauto|]); (split; [cbn; congruence|]); (split; [reflexivity|]); (split; [discriminate|]); (split; [discriminate|]); eexists; eauto.
    - destruct (pk_cmd k =? 2) eqn:E2; [apply Z.eqb_eq in E2; exists HTerminate|congruence]. specialize (LG eq_refl).
      assert (D : exists x, Unbind_Decode SG_UNBIND (pk_seq k) (pk_body k) = Ok x).
      { unfold Unbind_Decode. destruct (proj2 (PropPanics.get_be_ok_iff 4 (pk_body k) 0 4)) as [x1 E1]; [lia|].
        destruct (proj2 (PropPanics.get_be_ok_iff 4 (pk_body k) 4 8)) as [x2 E3]; [lia|]. rewrite E1, E3. eexists. reflexivity. }
      destruct D as [x D]. exists (JTerm k (BSgip x)). split; [cbn; tauto|]. split; [cbn; congruence|]. split; [cbn [decode_other]; rewrite D; reflexivity|]. split; [discriminate|]. split; [discriminate|]. eauto.
    - destruct (pk_cmd k =? 4) eqn:E8; [apply Z.eqb_eq in E8; exists HActive|destruct (pk_cmd k =? 6) eqn:E2; [apply Z.eqb_eq in E2; exists HTerminate|congruence]];
        eexists; (split; [cbn; tauto|]); (split; [cbn; congruence|]); (split; [reflexivity|]); (split; [discriminate|]); (split; [discriminate|]); eexists; eauto. }
  destruct HH as (h & j & HI & HC & D & N1 & N2 & x & HJ).
  cbn [step]. unfold on_recv. rewrite O. cbn [negb]. unfold OnTraffic. rewrite F. cbn [bind].
  set (c2 := spawn (note (note c (OGot k)) (OServe k false)) j).
  assert (A : act pr o h k c = Ok (ANone, c2)).
  { unfold act. cbv zeta. change (sc_sess (note c (OGot k))) with (sc_sess c). unfold sessionCheck. rewrite ST. cbn [negb]. rewrite D, RS, AC. cbn [negb]. destruct h; try congruence; reflexivity. }
  assert (CH : forall hs, NoDup (map (handler_cmd (pr_p pr)) hs) -> In h hs -> ExecuteChain (pr_p pr) (act pr o) hs k c = Ok (ANone, c2)).
  { induction hs as [|h0 hs IH]; [intros _ []|]; intros ND [->|Hi].
    - cbn [ExecuteChain]. unfold handler. rewrite HC, Z.eqb_refl. cbn [negb]. rewrite A. reflexivity.
    - cbn [ExecuteChain]. unfold handler. cbn [map] in ND. inversion ND as [|? ? M1 M2]; subst.
      replace (handler_cmd (pr_p pr) h0 =? pk_cmd k) with false.
      2:{ symmetry. apply Z.eqb_neq. intros E. apply M1. rewrite E, <- HC. apply in_map. exact Hi. }
      cbn [negb bind]. apply IH; assumption. }
  rewrite CH; [|apply handlers_nodup|exact HI]. cbn [bind]. eexists. split; [reflexivity|]. split; [exact O|]. unfold c2. split; [|split].
  - cbn [with_buf spawn with_tasks note sc_log]. rewrite <- app_assoc. reflexivity.
  - cbn [with_buf spawn with_tasks note sc_tasks]. rewrite count_app, count_one. assert (K : same_pk k k = true) by (apply same_pk_iff; reflexivity).
    destruct HJ as [-> | ->]; cbn [in_hand]; rewrite K; reflexivity.
  - split; reflexivity.
Qed.

(** ** The demo server: two heartbeats and a terminate *)
Definition beat_pk : packet := Packet 8 10 [].
Definition bye_bytes : bytes := [0; 0; 0; 12; 0; 0; 0; 2; 0; 0; 0; 77].
Definition es_pong : list (event * orc) := login_events ++
  map (fun e => (e, orc1)) [ERecv active_demo; ERecv active_demo; ETask 0; ETask 0; ETask 0; EWrite; ERecv bye_bytes; ETask 0; ETask 0; ETask 0; ETask 0; ETask 0; ETask 0; EWrite; EWrite].
Definition outs (l : list obs) : list bytes := flat_map (fun o => match o with OOut _ b => [b] | _ => [] end) l.
Example C107_case : match run pr_one (opened 0) es_pong with
  | Ok c => skipn 1 (outs (sc_log c)) = [[0; 0; 0; 13; 128; 0; 0; 8; 0; 0; 0; 10; 0]; [0; 0; 0; 13; 128; 0; 0; 8; 0; 0; 0; 10; 0]; [0; 0; 0; 12; 128; 0; 0; 2; 0; 0; 0; 77]] /\
      sc_open c = true /\ sc_wish c = true /\ count (is_served beat_pk false) (sc_log c) = 2 /\ count (replied beat_pk) (sc_log c) = 2
  | _ => False end /\ calm pr_one (opened 0) es_pong.
Proof. split; [vm_compute; repeat split|]. apply calmb_ok. vm_compute. reflexivity. Qed.
(** C107, refuted: two heartbeats are taken in, the first takes the only slot, the second waits; then
    the client logs in again.  The waiting goroutine dies on the closed channel: its heartbeat is never
    answered although the connection stays open. *)
Definition es_mute_pong : list (event * orc) := login_events ++
  map (fun e => (e, orc1)) [ERecv active_demo; ERecv active_demo; ETask 0; ETask 1; ERecv login_demo; ETask 2; EWrite; ETask 1; ETask 0; ETask 0; EWrite; EWrite; ETask 0].
Theorem C107_refuted : exists c, run pr_one (opened 0) es_mute_pong = Ok c /\ sc_open c = true /\ asked P_CMPP beat_pk <> None /\
  forall es' c', segs_ok es' -> run pr_one c es' = Ok c' -> count (replied beat_pk) (sc_log c') < count (is_served beat_pk false) (sc_log c').
Proof.
  destruct (run pr_one (opened 0) es_mute_pong) as [c| |] eqn:E; [|vm_compute in E; discriminate|vm_compute in E; discriminate].
  exists c. split; [reflexivity|].
  assert (X : match run pr_one (opened 0) es_mute_pong with Ok c => sc_open c && (gone beat_pk c =? 1) | _ => false end = true) by (vm_compute; reflexivity).
  rewrite E in X. apply andb_prop in X as [X1 X2]. split; [exact X1|]. split; [discriminate|]. intros es' c' S R.
  assert (Y : forall seg, forallb (fun b => (0 <=? b) && (b <? 256)) seg = true -> bytes_ok seg).
  { intros seg. unfold bytes_ok. rewrite forallb_forall, Forall_forall. unfold is_byte. intros K x Hx. specialize (K x Hx). lia. }
  assert (F : right pr_one c).
  { apply (right_run pr_one es_mute_pong (opened 0)); [|apply right_opened|exact E].
    unfold segs_ok, es_mute_pong, login_events. cbn [map app]. repeat (apply Forall_cons; [cbn [fst]; first [exact Logic.I | apply Y; vm_compute; reflexivity]|]). apply Forall_nil. }
  assert (HK : asked (pr_p pr_one) beat_pk <> None) by discriminate.
  pose proof (gone_run_le pr_one es' beat_pk HK c c' S F R) as L. unfold gone in L at 2.
  pose proof (count_nonneg (waits beat_pk) (sc_queue c')). pose proof (count_nonneg (in_hand beat_pk) (sc_tasks c')). lia.
Qed.
Print Assumptions C107_answers.
Print Assumptions C107_partial.
Print Assumptions C107_finishes.
Print Assumptions C107_received.
Print Assumptions C107_refuted.

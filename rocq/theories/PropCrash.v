(** * PropCrash: property C105 (no client can end the server). *)
From Verif Require Import Base UtilsModel SpecText SpecWire WireProofs SeqModel OptionsModel CmppModel CmppBuildProofs SgipModel TlvModel SmgpModel PropPanics
  FrameModel SpecFrame PropFrame SpecServer ServerModel ServerProofs PropServer PropWindow PropAnswers EventModel PoolModel MainModel PropSignals WholeModel PropWhole.

(** ** Specification *)
(** The bodies the server can read, by protocol and command; [three]: the session's version is CMPP 3. *)
Definition legible (p : proto) (three : bool) (cmd : Z) (b : bytes) : Prop :=
  match p with
  | P_CMPP => (cmd = 1 -> 27 <= zlen b) /\ (cmd = 4 -> submit_safe three b) /\ (cmd = 2 ^ 31 + 5 -> 9 <= zlen b)
  | P_SGIP => (cmd = 1 -> 41 <= zlen b) /\ (cmd = 3 -> sgip_submit_safe b) /\ (cmd = 2 \/ cmd = 2 ^ 31 + 2 -> 8 <= zlen b)
  | P_SMGP => (cmd = 1 -> 30 <= zlen b) /\ (cmd = 2 -> smgp_submit_safe b) /\ (cmd = 2 ^ 31 + 3 -> 14 <= zlen b)
  end.
(** The octets [buf] begin with the packet [k0]; the server works on the body [b] (with [drain] a packet
    without body gets what follows it). *)
Definition first_packet (p : proto) (drain : bool) (buf : bytes) (k0 : packet) (b : bytes) : Prop :=
  legal p k0 /\ exists r, buf = wire k0 ++ r /\ b = match pk_body k0 with [] => if drain then r else [] | x => x end.
(** What ends the process: a packet with a body that cannot be read, of a client that is logged in or
    that asks to be; or the answer that grants a login to an account with a negative window. *)
Definition deadly (pr : params) (c : sconn) (e : event) : Prop :=
  sc_open c = true /\
  match e with
  | ERecv seg => exists k b, first_packet (pr_p pr) (pr_drain pr) (sc_buf c ++ seg) k b /\ (pk_cmd k = 1 \/ se_stat (sc_sess c) = StatLogin) /\
      ~ legible (pr_p pr) (Z.land (se_ver (sc_sess c)) 240 =? 48) (pk_cmd k) b
  | EWrite => exists k b a f r g name, sc_queue c = (KLogin k 0, b, f) :: r /\ f = CbLogin k 0 (Some a) /\ pr_find pr g name = Some a /\ ac_MtWindowSize a < 0
  | _ => False
  end.

(** ** Framing, both readings of the library *)
Lemma dch_drain p buf : match DecodeAndCheckHeader p false buf with
  | Ok (FPass _ _) => True | x => DecodeAndCheckHeader p true buf = x end.
Proof.
  unfold DecodeAndCheckHeader. destruct (zlen buf <? 12); [reflexivity|]. change (Peek true 12 buf) with (Peek false 12 buf).
  destruct (UnpackHead (Peek false 12 buf)) as [[[a b] c]| |]; cbn [bind]; try reflexivity.
  destruct (_ || _); [reflexivity|]. destruct (has_suffix _ _); [reflexivity|]. destruct (zlen buf <? a); [reflexivity|exact Logic.I].
Qed.
Lemma dch_first p drain buf : bytes_ok buf ->
  exists fo, DecodeAndCheckHeader p drain buf = Ok fo /\
    match fo with
    | FPass k rest => exists k0, first_packet p drain buf k0 (pk_body k) /\ pk_cmd k0 = pk_cmd k /\ pk_seq k0 = pk_seq k
    | _ => forall k0 b, ~ first_packet p drain buf k0 b
    end.
Proof.
  intros Hb. destruct (dch_any p buf Hb) as (fo & E & H). pose proof (dch_drain p buf) as D. rewrite E in D.
  assert (N : (forall k rest, fo <> FPass k rest) -> DecodeAndCheckHeader p drain buf = Ok fo /\ forall k0 b, ~ first_packet p drain buf k0 b).
  { intros N. assert (E2 : DecodeAndCheckHeader p drain buf = Ok fo) by (destruct drain; [|exact E]; destruct fo; [exact D|exact D|exfalso; eapply N; reflexivity]).
    split; [exact E2|]. intros k0 b (L & r & -> & _). rewrite dch_full in E2 by exact L. injection E2 as <-. eapply N; reflexivity. }
  destruct fo as [| |k rest]; [exists FWait; apply N; discriminate|exists FClose; apply N; discriminate|]. destruct H as [L EB].
  exists (FPass (Packet (pk_cmd k) (pk_seq k) (body_of drain k rest)) (rest_of drain k rest)).
  split; [rewrite EB; apply dch_full; exact L|]. exists k. cbn [pk_cmd pk_seq pk_body]. split; [|auto]. split; [exact L|]. exists rest. split; [exact EB|]. unfold body_of. destruct (pk_body k); reflexivity.
Qed.
Lemma first_one p drain buf k b k' b' : first_packet p drain buf k b -> first_packet p drain buf k' b' -> k = k' /\ b = b'.
Proof.
  intros (L & r & E & B) (L' & r' & E' & B').
  assert (X : DecodeAndCheckHeader p false buf = Ok (FPass k r)) by (rewrite E; apply exact_pass; [exact L|left; reflexivity]).
  assert (X' : DecodeAndCheckHeader p false buf = Ok (FPass k' r')) by (rewrite E'; apply exact_pass; [exact L'|left; reflexivity]).
  rewrite X in X'. injection X' as <- <-. split; [reflexivity|]. congruence.
Qed.

(** ** Which packets break the handlers *)
Lemma crash_iff {A} (safe : Prop) (D : res A) : crashes_unless safe D -> (D = Panic <-> ~ safe).
Proof. intros [[H [d E]]|[H E]]; split; intros X; try congruence; auto; contradiction. Qed.
Lemma bind_panic {A B} (a : res A) (f : A -> B) : ('x <- a ;; Ok (f x)) = Panic <-> a = Panic.
Proof. destruct a; cbn [bind]; split; congruence. Qed.

Lemma no_crash {A} (D : res A) : (exists d, D = Ok d) -> forall P : Prop, P -> (D = Panic <-> ~ P).
Proof. intros [d ->] P p. split; [discriminate|contradiction]. Qed.
Lemma only (P Q : Prop) : (Q <-> P) -> (~ P <-> ~ Q).
Proof. tauto. Qed.
Ltac sole := unfold legible; change (2 ^ 31) with 2147483648; intuition lia.
Lemma login_panic p three k : pk_cmd k = 1 -> (decode_login p k = Panic <-> ~ legible p three (pk_cmd k) (pk_body k)).
Proof.
  intros ->. destruct p; unfold decode_login; rewrite bind_panic.
  - rewrite (crash_iff _ _ (C46_cmpp_connect _ _)). apply only. sole.
  - rewrite (crash_iff _ _ (C46_sgip_bind _ _)). apply only. sole.
  - rewrite (crash_iff _ _ (C46_smgp_login _ _)). apply only. sole.
Qed.
Lemma submit_panic pr ver k : In (pk_cmd k, HSubmit) (command_handler (pr_p pr)) -> bytes_ok (pk_body k) ->
  (decode_submit pr ver k = Panic <-> ~ legible (pr_p pr) (Z.land ver 240 =? 48) (pk_cmd k) (pk_body k)).
Proof.
  intros Hin Hb. unfold decode_submit. destruct (pr_p pr); rewrite bind_panic.
  - assert (E : pk_cmd k = 4) by (cbn [command_handler In] in Hin; intuition congruence). rewrite E.
    rewrite (crash_iff _ _ (C46_cmpp_submit _ _ _ Hb)). apply only. change (is_v3 ver) with (48 =? Z.land ver 240). rewrite (Z.eqb_sym 48). sole.
  - assert (E : pk_cmd k = 3) by (cbn [command_handler In] in Hin; intuition congruence). rewrite E.
    rewrite (crash_iff _ _ (C46_sgip_submit _ _ Hb)). apply only. sole.
  - assert (E : pk_cmd k = 2) by (cbn [command_handler In] in Hin; intuition congruence). rewrite E.
    rewrite (crash_iff _ _ (C46_smgp_submit _ _ _ _ Hb)). apply only. sole.
Qed.
Lemma other_panic p three h k : In (pk_cmd k, h) (command_handler p) -> h <> HLogin -> h <> HSubmit ->
  (decode_other p h k = Panic <-> ~ legible p three (pk_cmd k) (pk_body k)).
Proof.
  intros Hin N1 N2. destruct p; cbn [command_handler In] in Hin;
    repeat (destruct Hin as [Hin|Hin]); try contradiction; injection Hin as <- <-; try congruence; cbn [decode_other]; rewrite bind_panic.
  - apply no_crash; [eexists; reflexivity|sole].
  - apply no_crash; [eexists; reflexivity|sole].
  - apply no_crash; [eexists; reflexivity|sole].
  - rewrite (crash_iff _ _ (C46_cmpp_resp _ _ _ _)). apply only. change (is_v3 0) with false. cbv iota. sole.
  - apply no_crash; [eexists; reflexivity|sole].
  - rewrite (crash_iff _ _ (C46_sgip_unbind _ _ _)). apply only. sole.
  - rewrite (crash_iff _ _ (C46_sgip_unbind _ _ _)). apply only. sole.
  - apply no_crash; [eexists; reflexivity|sole].
  - apply no_crash; [eexists; reflexivity|sole].
  - rewrite (crash_iff _ _ (C46_smgp_resp _ _ _ _)). apply only. sole.
  - apply no_crash; [eexists; reflexivity|sole].
  - apply no_crash; [eexists; reflexivity|sole].
Qed.
Lemma act_panic pr o h k c : In (pk_cmd k, h) (command_handler (pr_p pr)) -> bytes_ok (pk_body k) ->
  (se_stat (sc_sess c) = StatLogin -> se_res (sc_sess c) = true) ->
  (act pr o h k c = Panic <-> (pk_cmd k = 1 \/ se_stat (sc_sess c) = StatLogin) /\
     ~ legible (pr_p pr) (Z.land (se_ver (sc_sess c)) 240 =? 48) (pk_cmd k) (pk_body k)).
Proof.
  intros Hin Hb Hr. set (three := Z.land _ 240 =? 48).
  assert (C1 : h = HLogin <-> pk_cmd k = 1).
  { destruct (pr_p pr); cbn [command_handler In] in Hin; repeat (destruct Hin as [Hin|Hin]); try contradiction; injection Hin as <- <-; split; intros; try discriminate; reflexivity. }
  unfold act. cbv zeta. change (sc_sess (note c (OGot k))) with (sc_sess c). unfold sessionCheck.
  assert (OTH : h <> HLogin -> h <> HSubmit ->
    ((if negb match se_stat (sc_sess c) with StatLogin => true | _ => false end then Ok (AClose, note c (OGot k))
      else match decode_other (pr_p pr) h k with
        | Err _ => Ok (AClose, note c (OGot k)) | Panic => Panic
        | Ok j => if negb (se_res (sc_sess c)) then Panic
          else if o_acc o then Ok (ANone, spawn (note (note c (OGot k)) (OServe k false)) j) else Ok (AClose, note c (OGot k)) end) = Panic <->
     (pk_cmd k = 1 \/ se_stat (sc_sess c) = StatLogin) /\ ~ legible (pr_p pr) three (pk_cmd k) (pk_body k))).
  { intros N1 N2. assert (N3 : pk_cmd k <> 1) by tauto. rewrite <- (other_panic (pr_p pr) three h k Hin N1 N2).
    destruct (se_stat (sc_sess c)) eqn:S0; cbn [negb]; try (split; [discriminate|intros [[X|X] _]; [contradiction|discriminate X]]).
    rewrite (Hr eq_refl). cbn [negb]. destruct (decode_other _ _ _); [destruct (o_acc o)| |]; split; intros X; try discriminate X; try (apply proj2 in X; discriminate X); auto. }
  destruct h; try (apply OTH; discriminate); clear OTH.
  - assert (N3 : pk_cmd k <> 1) by (intros X; apply C1 in X; discriminate X). unfold three. rewrite <- (submit_panic pr _ k Hin Hb).
    destruct (se_stat (sc_sess c)) eqn:S0; cbn [negb]; try (split; [discriminate|intros [[X|X] _]; [contradiction|discriminate X]]).
    rewrite (Hr eq_refl). cbn [negb]. destruct (decode_submit _ _ _); [destruct (o_lim o); cbn [negb]; destruct (o_acc o)| |]; split; intros X; try discriminate X; try (apply proj2 in X; discriminate X); auto.
  - rewrite <- (login_panic (pr_p pr) three k (proj1 C1 eq_refl)).
    destruct (decode_login _ _); [destruct (o_acc o)| |]; split; intros X; try discriminate X; try (apply proj2 in X; discriminate X); auto. split; [left; apply C1; reflexivity|reflexivity].
Qed.
Lemma act_noerr pr o h k c x : act pr o h k c <> Err x.
Proof.
  unfold act. cbv zeta. destruct h; repeat match goal with |- context [if ?b then _ else _] => destruct b | |- context [match ?d with _ => _ end] => destruct d end; discriminate.
Qed.
Lemma known_handler p cmd : (exists h, In (cmd, h) (command_handler p)) \/ (forall h, ~ In (cmd, h) (command_handler p)).
Proof.
  induction (command_handler p) as [|[z h] l IH]; [right; intros h []|]. destruct (Z.eq_dec z cmd) as [<-|N]; [left; exists h; left; reflexivity|].
  destruct IH as [[h' X]|X]; [left; exists h'; right; exact X|]. right. intros h' [Y|Y]; [congruence|exact (X _ Y)].
Qed.
Lemma unhandled p three cmd b : (forall h, ~ In (cmd, h) (command_handler p)) -> legible p three cmd b.
Proof.
  intros N. assert (X : forall z h, In (z, h) (command_handler p) -> cmd <> z) by (intros z h H ->; exact (N h H)).
  destruct p; cbn [command_handler In] in X; unfold legible; change (2 ^ 31) with 2147483648 in *.
  - repeat split; intros E; exfalso; eapply X; try exact E; eauto 10.
  - repeat split; intros E; exfalso; [eapply X; try exact E; eauto 10..|]. destruct E as [E|E]; eapply X; try exact E; eauto 10.
  - repeat split; intros E; exfalso; eapply X; try exact E; eauto 10.
Qed.

(** ** What every connection keeps *)
Section Kept.
Variable pr : params.
Definition item_known (it : item) : Prop :=
  match it with
  | (kd, _, CbLogin k code ac) => kd = KLogin k code /\ (code = 0 -> exists a g name, ac = Some a /\ pr_find pr g name = Some a)
  | _ => True
  end.
Definition kept (c : sconn) : Prop :=
  bytes_ok (sc_buf c) /\ (sc_open c = true -> se_stat (sc_sess c) = StatLogin -> se_res (sc_sess c) = true) /\ forall it, In it (sc_queue c) -> item_known it.

Lemma kept_same c s ch ts its w l : kept c -> se_stat s = se_stat (sc_sess c) -> se_res s = se_res (sc_sess c) -> (forall it, In it its -> item_known it) ->
  kept (SConn (sc_buf c) (sc_open c) s ch ts (sc_queue c ++ its) w l).
Proof.
  intros (B & S0 & Q) E1 E2 Hi. split; [exact B|]. cbn [sc_open sc_sess sc_queue]. split; [rewrite E1, E2; exact S0|]. intros it X. apply in_app_or in X as [X|X]; auto.
Qed.
Lemma kept_same0 c s ch ts w l : kept c -> se_stat s = se_stat (sc_sess c) -> se_res s = se_res (sc_sess c) ->
  kept (SConn (sc_buf c) (sc_open c) s ch ts (sc_queue c) w l).
Proof. intros H E1 E2. rewrite <- (app_nil_r (sc_queue c)). apply kept_same; auto. intros it []. Qed.
Lemma kept_close c : kept c -> kept (OnClose c).
Proof.
  intros (B & S0 & Q). unfold OnClose. destruct (negb _) eqn:O; [split; auto|]. split; [exact B|]. split; [intros X; discriminate X|intros it []].
Qed.
Lemma known_item o j it : item_of pr o j it -> item_known it.
Proof.
  intros X. destruct X as [k l code0 l1 code b LC Z0 _ _ _ _| | | | | | | |]; try exact Logic.I. cbn [item_known]. split; [reflexivity|]. intros E. apply Z0 in E. rewrite E in LC.
  destruct (pr_find pr (o_gen o) (login_key l)) as [a|] eqn:F; [eauto 6|]. exfalso. clear - LC. destruct l; cbn in LC; discriminate LC.
Qed.
Lemma kept_task o i c : kept c -> kept (on_task pr o i c).
Proof.
  intros H. destruct (nth_error (sc_tasks c) i) as [[j q]|] eqn:N; [|unfold on_task; rewrite N; exact H].
  destruct (on_task_step pr o i c j q N) as [W F|Ej|it W I1 C1|g W Q|W Q S|W Q|k r it code a Ej Eq I1 C1 Ec Ek Ea|s' its w W Eq Nj SS It Wi|its a k Eq W It|g W Q|W Q];
    try (apply kept_same0; solve [exact H|reflexivity]).
  - apply kept_same; try reflexivity; [exact H|]. intros it' [<-|[]]. eapply known_item; eauto.
  - unfold try_send. destruct (ch_closed _); [|destruct (_ <? _)]; apply kept_same0; solve [exact H|reflexivity].
  - apply kept_same; try reflexivity; [exact H|]. intros it' [<-|[]]. eapply known_item; eauto.
  - apply kept_same; [exact H|apply SS..|]. intros it' Hi. destruct It as [->|(it0 & -> & X & _)]; [destruct Hi|destruct Hi as [<-|[]]; eapply known_item; eauto].
  - apply kept_same; try reflexivity; [exact H|]. intros it' Hi. destruct It as [->|(b & -> & X & _)]; [destruct Hi|destruct Hi as [<-|[]]; exact Logic.I].
  - unfold try_recv. destruct (_ <? _); [|destruct (ch_closed _)]; apply kept_same0; solve [exact H|reflexivity].
  - exact H.
Qed.
Lemma kept_write o c c' : kept c -> on_write o c = Ok c' -> kept c'.
Proof.
  intros H E. unfold on_write in E. destruct (sc_open c) eqn:O; [|injection E as <-; exact H].
  destruct (sc_queue c) as [|[[kd b] f] r] eqn:Q; [injection E as <-; exact H|].
  set (c1 := note (with_queue c r) (OOut kd b)) in E.
  assert (H1 : kept c1). { destruct H as (B & S0 & Q0). split; [exact B|]. split; [exact S0|]. intros it X. apply Q0. rewrite Q. right. exact X. }
  clearbody c1.
  assert (CL : kept (with_wish (with_sess c1 (set_stat (sc_sess c1) StatClosing)))).
  { destruct H1 as (B & S0 & Q0). split; [exact B|]. split; [|exact Q0]. intros _ X. discriminate X. }
  destruct f; cbn [callback] in E; try (injection E as <-; exact H1).
  - destruct ac as [ac|].
    + destruct (code =? 0) eqn:C0; [|injection E as <-; exact CL].
      apply bind_ok in E as (c2 & Ec & E). injection E as <-. unfold completeLogin in Ec. destruct (_ <? 0); [discriminate|]. injection Ec as <-.
      destruct H1 as (B & S0 & Q0). split; [exact B|]. split; [reflexivity|exact Q0].
    + destruct (code =? 0); [discriminate|]. injection E as <-. exact CL.
  - destruct (code =? 0); injection E as <-; exact H1.
Qed.
Lemma kept_tick o c : kept c -> kept (on_tick pr o c).
Proof.
  intros H. unfold on_tick. destruct (negb _); [exact H|]. destruct (_ || _); [destruct (o_acc o); exact H|].
  destruct (se_stat (sc_sess c)); auto. destruct (o_acc o), (o_dly o); try destruct (o_acc2 o); exact H.
Qed.
Lemma kept_buf c b : kept c -> bytes_ok b -> kept (with_buf c b).
Proof. intros (_ & H) B. split; [exact B|exact H]. Qed.
Lemma kept_recv o seg c c' : bytes_ok seg -> kept c -> on_recv pr o seg c = Ok c' -> kept c'.
Proof.
  intros Hs H E. apply on_recv_step in E. assert (B : bytes_ok (sc_buf c ++ seg)) by (apply Forall_app; split; [apply H|exact Hs]).
  destruct E as [O|O F|O F|k rest O F N|k rest h a c1 O F Hin Hc HA]; auto.
  - apply kept_buf; auto.
  - apply kept_close, kept_buf; auto.
  - apply kept_buf; auto. eapply dch_bytes; eauto.
  - destruct (dch_bytes _ _ _ _ _ B F) as [Bk Br]. assert (X : kept c1); [|destruct a; [apply kept_buf; auto|apply kept_close, kept_buf; auto]].
    destruct HA; exact H.
Qed.
Lemma kept_step c e c' : match fst e with ERecv seg => bytes_ok seg | _ => True end -> kept c -> step pr c e = Ok c' -> kept c'.
Proof.
  intros Hs H E1. destruct e as [[seg|i| | |] o]; cbn [step fst snd] in *.
  - eapply kept_recv; eauto.
  - injection E1 as <-. apply kept_task; auto.
  - eapply kept_write; eauto.
  - injection E1 as <-. apply kept_tick. exact H.
  - injection E1 as <-. apply kept_close. exact H.
Qed.
Lemma kept_opened now : kept (opened now).
Proof. split; [constructor|]. split; [discriminate|intros it []]. Qed.

(** ** One event *)
Lemma step_ok c e : kept c -> match fst e with ERecv seg => bytes_ok seg | _ => True end -> (step pr c e = Panic <-> deadly pr c (fst e)) /\ (step pr c e <> Panic -> exists c', step pr c e = Ok c').
Proof.
  intros H Hs. destruct e as [[seg|i| | |] o]; cbn [step fst snd] in *.
  2,4,5: split; [split; [discriminate|intros [_ []]]|eauto].
  - unfold on_recv, deadly. destruct (sc_open c) eqn:O; cbn [negb]; [|split; [split; [discriminate|intros [X _]; discriminate X]|eauto]].
    assert (B : bytes_ok (sc_buf c ++ seg)) by (apply Forall_app; split; [apply H|exact Hs]).
    destruct (dch_first (pr_p pr) (pr_drain pr) _ B) as (fo & E & F). unfold OnTraffic. rewrite E. cbn [bind].
    destruct fo as [| |k rest].
    + split; [|cbn; eauto]. split; [discriminate|]. intros (_ & k & b & X & _). exfalso. exact (F _ _ X).
    + split; [|cbn; eauto]. split; [discriminate|]. intros (_ & k & b & X & _). exfalso. exact (F _ _ X).
    + destruct F as (k0 & P & C0 & _). destruct (dch_bytes _ _ _ _ _ B E) as [Bk _].
      assert (SP : (exists k b, first_packet (pr_p pr) (pr_drain pr) (sc_buf c ++ seg) k b /\ (pk_cmd k = 1 \/ se_stat (sc_sess c) = StatLogin) /\ ~ legible (pr_p pr) (Z.land (se_ver (sc_sess c)) 240 =? 48) (pk_cmd k) b)
        <-> (pk_cmd k = 1 \/ se_stat (sc_sess c) = StatLogin) /\ ~ legible (pr_p pr) (Z.land (se_ver (sc_sess c)) 240 =? 48) (pk_cmd k) (pk_body k)).
      { split.
        - intros (k' & b' & P' & X). destruct (first_one _ _ _ _ _ _ _ P P') as [<- <-]. rewrite <- C0. exact X.
        - intros X. exists k0, (pk_body k). split; [exact P|]. rewrite C0. exact X. }
      rewrite SP.
      destruct (known_handler (pr_p pr) (pk_cmd k)) as [[h Hh]|Hn].
      * rewrite (proj1 (chain_table _ _ _ _) h Hh). rewrite <- (act_panic pr o h k c Hh Bk (proj1 (proj2 H) O)).
        destruct (act pr o h k c) as [[a c1]| |] eqn:EA; cbn [bind].
        -- split; [split; [destruct a; discriminate|intros [_ X]; discriminate X]|]. intros _. destruct a; eauto.
        -- exfalso. eapply act_noerr; exact EA.
        -- tauto.
      * rewrite (proj2 (chain_table _ _ _ _) Hn). cbn [bind]. split; [|eauto]. split; [discriminate|]. intros (_ & _ & X). exfalso. apply X. 
        apply unhandled. exact Hn.
  - unfold on_write, deadly. destruct (sc_open c) eqn:O; [|split; [split; [discriminate|intros [X _]; discriminate X]|eauto]].
    destruct (sc_queue c) as [|[[kd b] f] r] eqn:Q.
    { split; [|eauto]. split; [discriminate|]. intros (_ & k & b & a & f & r & g & n & X & _). discriminate X. }
    assert (K : item_known (kd, b, f)) by (apply H; rewrite Q; left; reflexivity).
    set (c1 := note _ _).
    assert (NB : (forall k a, f <> CbLogin k 0 (Some a)) -> ~ exists k b0 a f0 r0 g name, (kd, b, f) :: r = (KLogin k 0, b0, f0) :: r0 /\ f0 = CbLogin k 0 (Some a) /\ pr_find pr g name = Some a /\ ac_MtWindowSize a < 0).
    { intros N (k & b0 & a & f0 & r0 & g & n & X & Y & _). injection X as _ _ X _. apply (N k a). congruence. }
    destruct f as [k code [a|]|code| | | | | |]; cbn [callback]; try (split; [split; [discriminate|intros [_ X]; exfalso; refine (NB _ X); discriminate]|eauto]).
    + destruct (code =? 0) eqn:C0; [|split; [split; [discriminate|intros [_ X]; exfalso; refine (NB _ X); intros k' a' Y; injection Y as _ Y _; lia]|eauto]].
      apply Z.eqb_eq in C0. subst code. destruct K as [-> K]. destruct (K eq_refl) as (a' & g & n & Y & Fd). injection Y as <-.
      unfold completeLogin. destruct (ac_MtWindowSize a <? 0) eqn:Wn; cbn [bind].
      * split; [|intros X; exfalso; exact (X eq_refl)]. split; [|reflexivity]. intros _. split; [reflexivity|].
        exists k, b, a, (CbLogin k 0 (Some a)), r, g, n. repeat split; auto. lia.
      * split; [|eauto]. split; [discriminate|]. intros (_ & k' & b' & a' & f' & r' & g' & n' & X & Y & _ & Z0). exfalso.
        injection X as _ _ X _. assert (a' = a) by congruence. subst a'. lia.
    + destruct (code =? 0) eqn:C0; [|split; [split; [discriminate|intros [_ X]; exfalso; refine (NB _ X); intros k' a' Y; discriminate Y]|eauto]].
      apply Z.eqb_eq in C0. destruct K as [_ K]. destruct (K C0) as (a' & g & n & Y & _). discriminate Y.
Qed.
End Kept.

(** ** The whole process *)
Definition octets_ok (e : wev) : Prop := match e with WServe _ (SConnStep _ (ERecv seg) _) => bytes_ok seg | _ => True end.
(** The event [e] makes a connection of a service do something deadly. *)
Definition fatal (w : whole) (e : wev) : Prop :=
  exists k i ev o s c, e = WServe k (SConnStep i ev o) /\ nth_error (w_srv w) k = Some s /\ nth_error (sv_conns s) i = Some c /\ deadly (sv_pr s) c ev.

Lemma kept_srun pr es : forall cs cs', Forall (kept pr) cs -> (forall k, Forall (fun e => octets_ok (WServe k e)) es) -> srun pr cs es = Ok cs' -> Forall (kept pr) cs'.
Proof.
  induction es as [|e es IH]; intros cs cs' H O E; cbn [srun] in E; [injection E as <-; exact H|]. apply bind_ok in E as (cs1 & E1 & E).
  refine (IH cs1 cs' _ _ E); [|intros k; specialize (O k); inversion O; assumption]. destruct e as [now|i e o]; cbn [sstep] in E1.
  - injection E1 as <-. apply Forall_app. split; [exact H|]. constructor; [apply kept_opened|constructor].
  - destruct (nth_error cs i) as [c|] eqn:N; [|injection E1 as <-; exact H]. apply bind_ok in E1 as (c1 & E1 & E2). injection E2 as <-.
    assert (K : kept pr c1).
    { refine (kept_step pr c _ c1 _ _ E1); [|rewrite Forall_forall in H; apply H; eapply nth_error_In; eauto].
      specialize (O 0%nat). inversion O as [|x y O1 O2]; subst. cbn [fst]. destruct e; exact O1. }
    apply Forall_forall. intros x X. apply (in_upd _ _ _ _ _ N) in X as [->|X]; [exact K|]. rewrite Forall_forall in H. auto.
Qed.
Lemma own_octets k : forall es, Forall octets_ok es -> forall j, Forall (fun e => octets_ok (WServe j e)) (own k es).
Proof.
  induction es as [|e es IH]; intros H j; [constructor|]. inversion H as [|x y H1 H2]; subst. destruct e as [pe|i e|i]; cbn [own]; auto.
  destruct (Nat.eq_dec i k); auto.
Qed.
Lemma kept_whole hook order prs es k s c : Forall octets_ok es -> nth_error (w_srv (wrun hook order es (wstart prs))) k = Some s -> In c (sv_conns s) -> kept (sv_pr s) c.
Proof.
  intros O Hs Hc. destruct (C103_own_events hook order prs es) as (es1 & rest & E & _ & G). set (w := wrun _ _ _ _) in *.
  assert (L : length (w_srv w) = length prs).
  { destruct (follows_run hook order es (wstart prs)) as (x1 & x2 & _ & (Fl & _) & _). fold w in Fl. rewrite Fl. cbn. apply map_length. }
  assert (Hl : (k < length prs)%nat) by (rewrite <- L; apply nth_error_Some; congruence).
  destruct (nth_error prs k) as [pr|] eqn:E0; [|apply nth_error_None in E0; lia].
  destruct (G k pr E0) as (s' & A & B & C). assert (s' = s) by congruence. subst s'. rewrite B.
  rewrite E in O. apply Forall_app in O as [O _].
  pose proof (kept_srun pr (own k es1) [] (sv_conns s) (Forall_nil _) (own_octets k es1 O) C) as X. rewrite Forall_forall in X. auto.
Qed.
Lemma wrun_app hook order a b w : wrun hook order (a ++ b) w = wrun hook order b (wrun hook order a w).
Proof. apply fold_left_app. Qed.
Lemma over_stays hook order : forall es w, w_fate w <> Runs -> wrun hook order es w = w.
Proof. induction es as [|e es IH]; intros w H; [reflexivity|]. cbn [wrun fold_left]. unfold wstep at 2. destruct (w_fate w) eqn:F; [congruence|..]; apply IH; congruence. Qed.

(** A running process goes down by an event exactly when that event is fatal. *)
Lemma fatal_iff hook order prs es e : Forall octets_ok (es ++ [e]) -> let w := wrun hook order es (wstart prs) in running w ->
  (w_fate (wstep hook order w e) = Crashed <-> fatal w e).
Proof.
  intros O w [Rf Ra]. apply Forall_app in O as [O Oe]. inversion Oe as [|x y Oe1 _]; subst. unfold wstep. rewrite Rf, Ra.
  destruct e as [pe|k [now|i ev o]|k].
  - split; [discriminate|]. intros (k & i & ev & o & s & c & X & _). discriminate X.
  - split; [|intros (k' & i & ev & o & s & c & X & _); discriminate X]. destruct (nth_error (w_srv w) k); cbn; [discriminate|rewrite Rf; discriminate].
  - destruct (nth_error (w_srv w) k) as [s|] eqn:N.
    2:{ rewrite Rf. split; [discriminate|]. intros (k' & i' & ev' & o' & s & c & X & A & _). injection X as <- _ _ _. congruence. }
    cbn [sstep]. destruct (nth_error (sv_conns s) i) as [c|] eqn:M.
    2:{ split; [discriminate|]. intros (k' & i' & ev' & o' & s' & c & X & A & B & _). injection X as <- <- _ _. assert (s' = s) by congruence. subst s'. congruence. }
    assert (K : kept (sv_pr s) c) by (refine (kept_whole hook order prs es k s c O N _); eapply nth_error_In; eauto).
    destruct (step_ok (sv_pr s) c (ev, counted (sv_conns s) o) K) as [D1 D2]; [cbn [fst]; destruct ev; exact Oe1 || exact Logic.I|]. cbn [fst] in D1.
    assert (F : fatal w (WServe k (SConnStep i ev o)) <-> deadly (sv_pr s) c ev).
    { split.
      - intros (k' & i' & ev' & o' & s' & c' & X & A & B & C). injection X as <- <- <- _. assert (s' = s) by congruence. subst s'. assert (c' = c) by congruence. subst c'. exact C.
      - intros C. exists k, i, ev, o, s, c. auto. }
    rewrite F, <- D1. destruct (step _ _ _) as [c1| |] eqn:St; cbn [bind]; [split; discriminate| |split; reflexivity].
    destruct D2 as [c' X]; [discriminate|discriminate X].
  - split; [|intros (k' & i & ev & o & s & c & X & _); discriminate X]. destruct (nth_error (w_srv w) k); cbn; [discriminate|rewrite Rf; discriminate].
Qed.

(** ** C105: the process goes down exactly by such an event *)
Theorem C105_partial : forall hook order prs es, Forall octets_ok es ->
  (w_fate (wrun hook order es (wstart prs)) = Crashed <->
   exists es1 e es2, es = es1 ++ e :: es2 /\ running (wrun hook order es1 (wstart prs)) /\ fatal (wrun hook order es1 (wstart prs)) e).
Proof.
  intros hook order prs es O. split.
  - induction es as [|e es IH] using rev_ind; [discriminate|]. intros H. pose proof O as Oa. apply Forall_app in O as [O Oe]. rewrite wrun_app in H. set (w := wrun hook order es (wstart prs)) in *.
    cbn [wrun fold_left] in H. destruct (w_fate w) eqn:F.
    + destruct (pc_p (w_proc w)) eqn:P.
      1:{ exists es, e, []. split; [reflexivity|]. assert (R0 : running w) by (split; assumption). split; [exact R0|]. apply (fatal_iff hook order prs es e Oa R0). exact H. }
      all: exfalso; unfold wstep in H; rewrite F, P in H; congruence.
    + destruct (IH O eq_refl) as (es1 & e1 & es2 & -> & A & B). exists es1, e1, (es2 ++ [e]). rewrite <- app_assoc. auto.
    + exfalso. unfold wstep in H. rewrite F in H. congruence.
  - intros (es1 & e & es2 & -> & R0 & X). rewrite wrun_app. cbn [wrun fold_left]. set (w := wrun hook order es1 (wstart prs)) in *.
    assert (F : w_fate (wstep hook order w e) = Crashed).
    { apply (fatal_iff hook order prs es1 e); auto. apply Forall_app in O as [O Oe]. inversion Oe; subst. apply Forall_app. auto. }
    change (w_fate (wrun hook order es2 (wstep hook order w e)) = Crashed). rewrite over_stays; [exact F|congruence].
Qed.
Print Assumptions C105_partial.

(** ** C105 is false as stated: whoever can connect ends the process with twelve octets *)
Definition twelve (seq : bytes) : bytes := [0; 0; 0; 12; 0; 0; 0; 1] ++ seq.
Lemma twelve_first p drain seq : bytes_ok seq -> zlen seq = 4 -> exists k, first_packet p drain (twelve seq) k [] /\ pk_cmd k = 1.
Proof.
  intros B L. exists (Packet 1 (unbe seq) []). split; [|reflexivity]. split.
  - split; [|split; [|split]].
    + destruct p; left; reflexivity.
    + cbn [pk_seq]. pose proof (unbe_range seq B) as X. rewrite L in X. exact X.
    + constructor.
    + cbn. lia.
  - exists []. split; [|cbn [pk_body]; destruct drain; reflexivity]. rewrite app_nil_r. unfold wire, wire_of, twelve. cbn [pk_cmd pk_seq pk_body].
    replace (be 4 (unbe seq)) with seq; [rewrite app_nil_r; reflexivity|]. symmetry. replace 4%nat with (length seq) by (unfold zlen in L; lia). apply be_unbe. exact B.
Qed.
Theorem C105_refuted : forall hook order prs es, Forall octets_ok es -> let w := wrun hook order es (wstart prs) in running w ->
  forall k s now seq o es', nth_error (w_srv w) k = Some s -> bytes_ok seq -> zlen seq = 4 ->
  let w' := wrun hook order ([WServe k (SOpen now); WServe k (SConnStep (length (sv_conns s)) (ERecv (twelve seq)) o)] ++ es') w in
  w_fate w' = Crashed /\ w_proc w' = w_proc w /\
  forall j, nth_error (w_srv w') j = (if Nat.eq_dec j k then Some (Service (sv_pr s) (sv_conns s ++ [opened now])) else nth_error (w_srv w) j).
Proof.
  intros hook order prs es O w R0 k s now seq o es' N B L w'.
  set (w1 := wrun hook order (es ++ [WServe k (SOpen now)]) (wstart prs)).
  assert (E1 : w1 = Whole (w_proc w) (put_srv (w_srv w) k (Service (sv_pr s) (sv_conns s ++ [opened now]))) Runs).
  { unfold w1. rewrite wrun_app. fold w. cbn [wrun fold_left]. unfold wstep. destruct R0 as [-> ->]. rewrite N. reflexivity. }
  assert (N1 : forall j, nth_error (w_srv w1) j = (if Nat.eq_dec j k then Some (Service (sv_pr s) (sv_conns s ++ [opened now])) else nth_error (w_srv w) j)).
  { intros j. rewrite E1. cbn [w_srv]. unfold put_srv. assert (Lk : (k < length (w_srv w))%nat) by (apply nth_error_Some; congruence).
    assert (Lf : length (firstn k (w_srv w)) = k) by (rewrite firstn_length; lia).
    destruct (Nat.eq_dec j k) as [->|Nj]; [rewrite nth_error_app2 by lia; rewrite Lf, Nat.sub_diag; reflexivity|].
    destruct (Nat.lt_ge_cases j k) as [Lj|Lj].
    - rewrite nth_error_app1 by lia. rewrite <- (firstn_skipn k (w_srv w)) at 2. rewrite nth_error_app1 by lia. reflexivity.
    - rewrite nth_error_app2 by lia. rewrite Lf. cbn [app]. replace (j - k)%nat with (S (j - S k)) by lia. cbn [nth_error].
      rewrite <- (firstn_skipn (S k) (w_srv w)) at 2. assert (Lg : length (firstn (S k) (w_srv w)) = S k) by (rewrite firstn_length; lia).
      rewrite nth_error_app2 by lia. rewrite Lg. reflexivity. }
  assert (R1 : running w1) by (rewrite E1; split; [reflexivity|apply R0]).
  set (e := WServe k (SConnStep (length (sv_conns s)) (ERecv (twelve seq)) o)) in *.
  assert (Oe : octets_ok e) by (unfold octets_ok, e, twelve; repeat (constructor; [split; lia|]); exact B).
  assert (F : w_fate (wstep hook order w1 e) = Crashed).
  { apply (fatal_iff hook order prs (es ++ [WServe k (SOpen now)]) e); [|exact R1|].
    - repeat (apply Forall_app; split); auto; repeat constructor.
    - exists k, (length (sv_conns s)), (ERecv (twelve seq)), o, (Service (sv_pr s) (sv_conns s ++ [opened now])), (opened now). split; [reflexivity|]. fold w1.
      split; [rewrite N1; destruct (Nat.eq_dec k k); congruence|]. split; [cbn [sv_conns]; rewrite nth_error_app2 by lia; rewrite Nat.sub_diag; reflexivity|].
      split; [reflexivity|]. destruct (twelve_first (pr_p (sv_pr s)) (pr_drain (sv_pr s)) seq B L) as (p & P & C). exists p, []. split; [exact P|]. split; [left; exact C|].
      rewrite C. clear. unfold legible. cbn. destruct (pr_p (sv_pr s)); intros (X & _); specialize (X eq_refl); lia. }
  assert (W : w' = wstep hook order w1 e).
  { unfold w'. rewrite wrun_app. cbn [wrun fold_left]. change (wstep hook order w (WServe k (SOpen now))) with (wrun hook order [WServe k (SOpen now)] w). unfold w at 1. rewrite <- wrun_app. fold w1.
    apply over_stays. congruence. }
  assert (S0 : w_proc (wstep hook order w1 e) = w_proc w1 /\ w_srv (wstep hook order w1 e) = w_srv w1).
  { revert F. unfold wstep. destruct R1 as [-> ->]. unfold e. destruct (nth_error (w_srv w1) k) as [s1|]; [|auto]. destruct (sstep _ _ _); [discriminate|auto..]. }
  rewrite W. split; [exact F|]. destruct S0 as [-> ->]. split; [rewrite E1; reflexivity|exact N1].
Qed.
Print Assumptions C105_refuted.

(** Three services of one process, one logged-in client and traffic: nothing is fatal; then a stranger
    connects to the third service and sends twelve octets. *)
Definition calm_es : list wev := [WServe 0 (SOpen 0)] ++ map (fun e => WServe 0 (SConnStep 0 (fst e) (snd e))) es_submit ++ [WServe 2 (SOpen 3); WServe 1 (SOpen 3)].
Example C105_case : let w := wrun (fun _ s => s) [] calm_es (wstart [pr_one; pr_one; pr_one]) in
  Forall octets_ok calm_es /\ running w /\ ~ fatal w (WServe 0 (SConnStep 0 EWrite orc1)) /\
  w_fate (wrun (fun _ s => s) [] [WServe 2 (SConnStep 0 (ERecv (twelve [0; 0; 0; 7])) orc1)] w) = Crashed /\
  w_fate (wrun (fun _ s => s) [] [WServe 2 (SConnStep 0 (ERecv login_demo) orc1)] w) = Runs.
Proof.
  assert (O : Forall octets_ok (calm_es ++ [WServe 0 (SConnStep 0 EWrite orc1)])) .
  { assert (Y : forall e, match e with WServe _ (SConnStep _ (ERecv seg) _) => forallb (fun b => (0 <=? b) && (b <? 256)) seg | _ => true end = true -> octets_ok e).
    { intros [pe|k [now|i [seg| | | |] o]|k]; try (intros _; exact Logic.I). cbn [octets_ok]. unfold bytes_ok. rewrite forallb_forall, Forall_forall. unfold is_byte. intros K x Hx. specialize (K x Hx). lia. }
    apply Forall_forall. intros e He. apply Y. revert e He. apply forallb_forall. vm_compute. reflexivity. }
  assert (R0 : running (wrun (fun _ s => s) [] calm_es (wstart [pr_one; pr_one; pr_one]))) by (vm_compute; auto).
  cbv zeta. split; [apply Forall_app in O; apply O|]. split; [exact R0|]. split.
  - intros X. apply (fatal_iff (fun _ s => s) [] [pr_one; pr_one; pr_one] calm_es _ O R0) in X. vm_compute in X. discriminate X.
  - split; vm_compute; reflexivity.
Qed.
(** A logged-in client whose submit is cut short, and one whose account has a negative window. *)
Definition ac_odd : authconf := AuthConf [67;77;80;80] [57;48;49;48;48;49] [] [115;101;99] 48 1 [57;53] [77;49] 5 2 0 [] [48;50] [49;48] [] [] 0 4 (-1) 100.
Definition pr_odd : params := Params P_CMPP true md5_demo (fun b => Some b) (fun _ n => if beqb n (ac_ClientId ac_odd) then Some ac_odd else None) true 1000000000000.
Definition logged_in : list wev := WServe 0 (SOpen 0) :: map (fun e => WServe 0 (SConnStep 0 (fst e) (snd e))) login_events.
Example C105_case_served : 
  (w_fate (wrun (fun _ s => s) [] (logged_in ++ [WServe 0 (SConnStep 0 (ERecv ([0; 0; 0; 20; 0; 0; 0; 4; 0; 0; 0; 1] ++ repeat 0 8)) orc1)]) (wstart [pr_one])),
   w_fate (wrun (fun _ s => s) [] logged_in (wstart [pr_one])), w_fate (wrun (fun _ s => s) [] logged_in (wstart [pr_odd]))) = (Crashed, Runs, Crashed).
Proof. vm_compute. reflexivity. Qed.

(** * PropUnasked: the server sends no answer that was not asked for (C120). *)
From Verif Require Import Base UtilsModel OptionsModel SpecText SpecWire SpecFrame CmppModel PropCmpp CmppBuildProofs SgipModel SmgpModel
  FrameModel SpecServer ServerModel ServerProofs PropServer PropWindow PropResponses PropCmpp2 PropAnswers.
From Verif Require PropPong PropWhy PropTick PropFate PropEnd.

(** ** Specification, by the octets on the wire *)
(** [n] octets from place [i] on.  The command stands at places 4 to 7, the sequence number behind it:
    four octets, in SGIP twelve.  An answer is a packet whose command has its top bit set. *)
Definition octs (b : bytes) (i n : nat) : bytes := firstn n (skipn i b).
Definition command (b : bytes) : bytes := octs b 4 4.
Definition number (p : proto) (b : bytes) : bytes := octs b 8 (match p with P_SGIP => 12 | _ => 4 end).
Definition is_response (b : bytes) : bool := 128 <=? nth 4 b 0.
(** The packet [k] as it stood on the wire, and the command of the answer to it. *)
Definition octets_of (k : packet) : bytes := be 4 (zlen (pk_body k) + 12) ++ be 4 (pk_cmd k) ++ be 4 (pk_seq k) ++ pk_body k.
Definition answering (q : bytes) : bytes := (128 + nth 4 q 0) :: octs q 5 3.
(** Answers written, and requests received, of which [g] picks the answer's command and number. *)
Definition responds (p : proto) (g : bytes -> bytes -> bool) (o : obs) : bool :=
  match o with OOut _ b => is_response b && g (command b) (number p b) | _ => false end.
Definition requests (p : proto) (g : bytes -> bytes -> bool) (o : obs) : bool :=
  match o with OGot k => g (answering (octets_of k)) (number p (octets_of k)) | _ => false end.
(** What a server answers: logins, submits, heartbeats (not in SGIP), requests to end.  What it sends of
    its own: heartbeats (not in SGIP), requests to end, messages for the client. *)
Definition answered_commands (p : proto) : list bytes :=
  match p with
  | P_CMPP => [[128;0;0;1]; [128;0;0;4]; [128;0;0;8]; [128;0;0;2]]
  | P_SGIP => [[128;0;0;1]; [128;0;0;3]; [128;0;0;2]]
  | P_SMGP => [[128;0;0;1]; [128;0;0;2]; [128;0;0;4]; [128;0;0;6]]
  end.
Definition deliver_command (p : proto) : bytes := match p with P_CMPP => [0;0;0;5] | P_SGIP => [0;0;0;4] | P_SMGP => [0;0;0;3] end.
Definition own_commands (p : proto) : list bytes :=
  match p with
  | P_CMPP => [[0;0;0;8]; [0;0;0;2]; [0;0;0;5]]
  | P_SGIP => [[0;0;0;2]; [0;0;0;4]]
  | P_SMGP => [[0;0;0;4]; [0;0;0;6]; [0;0;0;3]]
  end.
(** The simulated incoming messages are delivers (C77). *)
Definition delivers (p : proto) (es : list (event * orc)) : Prop := Forall (fun e => forall b, o_dly (snd e) = Some b -> command b = deliver_command p) es.

(** ** Counting by the packet answered *)
Section Asked.
Variable pr : params.
Notation p := (pr_p pr).
Variable f : packet -> bool.
Definition for_one (kd : okind) : bool := match kd with KLogin k _ | KSubmit k _ _ | KActive k | KTerm k => f k | _ => false end.
Definition out_one (o : obs) : bool := match o with OOut kd _ => for_one kd | _ => false end.
Definition got_one (o : obs) : bool := match o with OGot k => f k | _ => false end.
Definition waits_one (it : item) : bool := for_one (fst (fst it)).
Definition to_do (t : task) : bool :=
  match t with
  | (JLogin k _, _) | (JFlow k _, _) => f k
  | (JSubmit k _, q) | (JActive k _, q) | (JTerm k _, q) => f k && match q with PStart | PSend _ | PWork => true | _ => false end
  | _ => false
  end.
Definition own_one (kd : okind) (b : bytes) : Prop :=
  match kd with KForce | KHeart | KDly => In (command b) (own_commands p) | KLogin k _ => pk_cmd k = 1 | KSubmit k _ _ => is_submit p k | _ => True end.
Definition job_own (t : task) : Prop :=
  match fst t with JDly b => In (command b) (own_commands p) | JLogin k _ => pk_cmd k = 1 | JFlow k _ | JSubmit k _ => is_submit p k | _ => True end.
Record asked' (ts : list task) (qu : list item) (lg : list obs) : Prop := Asked {
  as_job : forall t, In t ts -> job_own t;
  as_que : forall it, In it qu -> own_one (fst (fst it)) (snd (fst it));
  as_log : forall kd b, In (OOut kd b) lg -> own_one kd b;
  as_pre : forall l1 l2, lg = l1 ++ l2 -> count out_one l1 <= count got_one l1;
  as_all : count out_one lg + count waits_one qu + count to_do ts <= count got_one lg }.
Definition asked (c : sconn) : Prop := asked' (sc_tasks c) (sc_queue c) (sc_log c).

Lemma asked_note c o : asked c -> (forall kd b, o <> OOut kd b) -> asked (note c o).
Proof.
  intros [A B C D E] N. assert (O1 : out_one o = false) by (destruct o; auto; exfalso; eapply N; reflexivity).
  split; cbn [note sc_tasks sc_queue sc_log]; auto.
  - intros kd b H. apply in_app_or in H as [H|[H|[]]]; [auto|exfalso; exact (N _ _ H)].
  - intros l1 l2 X. destruct l2 as [|y l2].
    + rewrite app_nil_r in X. subst l1. rewrite !count_app, !count_one, O1. specialize (D _ [] (eq_sym (app_nil_r _))). destruct (got_one o); lia.
    + apply PropFate.snoc_split in X as [(l3 & X)|[-> _]]; [exact (D _ _ X)|]. apply (D _ []). rewrite app_nil_r. reflexivity.
  - rewrite !count_app, !count_one, O1. destruct (got_one o); lia.
Qed.
Lemma asked_tasks c ts : asked c -> (forall t, In t ts -> job_own t) -> count to_do ts <= count to_do (sc_tasks c) -> asked (with_tasks c ts).
Proof. intros [A B C D E] H L. split; cbn [with_tasks sc_tasks sc_queue sc_log]; auto. lia. Qed.
Lemma asked_item c ts it : asked c -> (forall t, In t ts -> job_own t) -> own_one (fst (fst it)) (snd (fst it)) ->
  (if waits_one it then 1 else 0) + count to_do ts <= count to_do (sc_tasks c) -> asked (put c [it] ts).
Proof.
  intros [A B C D E] H O1 L. split; cbn [put sc_tasks sc_queue sc_log]; auto.
  - intros x Hx. apply in_app_or in Hx as [Hx|[<-|[]]]; auto.
  - rewrite count_app, count_one. lia.
Qed.
Lemma asked_close c : asked c -> asked (OnClose c).
Proof.
  intros H. unfold OnClose. destruct (negb (sc_open c)); [exact H|]. apply asked_note; [|discriminate]. destruct H as [A B C D E].
  change (asked' (sc_tasks c) [] (sc_log c)). split; auto; [intros it []|]. rewrite (count_nil waits_one). pose proof (count_nonneg waits_one (sc_queue c)). lia.
Qed.
Lemma item_own o j q it : item_of pr o j it -> job_own (j, q) -> own_one (fst (fst it)) (snd (fst it)).
Proof.
  intros H J. destruct H; unfold job_own in J; cbn [fst snd own_one] in *; auto.
  - destruct (PropTick.force_bytes pr o) as (b' & E & F). replace b with b' by congruence. destruct p; cbn [terminate_packet] in F; [destruct F as (s & ->)|destruct F as (x & y & z & ->)|destruct F as (s & ->)]; cbn; auto.
  - assert (NS : p <> P_SGIP) by (intros X; rewrite X in *; discriminate). destruct (PropTick.heart_bytes pr o NS) as (b' & E & F). replace b with b' by congruence.
    destruct p; cbn [heartbeat_packet] in F; [destruct F as (s & ->)|destruct F|destruct F as (s & ->)]; cbn; auto.
Qed.
Lemma item_one o j it q : item_of pr o j it -> is_win j = false \/ q = PWork -> (if waits_one it then 1 else 0) <= (if to_do (j, q) then 1 else 0).
Proof.
  intros H W. destruct H; unfold waits_one; cbn [fst for_one to_do]; try (destruct (f k); lia); try lia;
    (destruct W as [W| ->]; [discriminate W|]; rewrite ?andb_true_r; destruct (f k); lia).
Qed.
Lemma asked_task o i c : asked c -> asked (on_task pr o i c).
Proof.
  intros H. destruct (nth_error (sc_tasks c) i) as [[j q]|] eqn:N; [|unfold on_task; rewrite N; exact H].
  assert (HT : forall t, In t (sc_tasks c) -> job_own t) by apply H.
  assert (J : job_own (j, q)) by (apply HT; eapply nth_error_In; eauto).
  assert (JU : forall q' t, In t (upd (sc_tasks c) i (j, q')) -> job_own t) by (intros q' t Ht; apply (in_upd _ _ _ _ _ N) in Ht as [->|Ht]; auto).
  assert (JD : forall t, In t (del (sc_tasks c) i) -> job_own t) by (intros t Ht; apply in_del in Ht; auto).
  assert (CU : forall q', count to_do (upd (sc_tasks c) i (j, q')) = count to_do (sc_tasks c) - (if to_do (j, q) then 1 else 0) + (if to_do (j, q') then 1 else 0)).
  { intros q'. rewrite (count_upd to_do _ _ _ (j, q') N). lia. }
  assert (CD : count to_do (del (sc_tasks c) i) = count to_do (sc_tasks c) - (if to_do (j, q) then 1 else 0)) by (rewrite (count_del to_do _ _ _ N); lia).
  assert (DN : is_win j = true -> forall q', match q' with PStart | PSend _ | PWork => False | _ => True end -> to_do (j, q') = false).
  { intros W q' Q. destruct j; try discriminate W; try reflexivity; cbn [to_do]; destruct q'; try destruct Q; rewrite andb_false_r; reflexivity. }
  assert (UP : is_win j = true -> forall q', to_do (j, q') = true -> match q with PStart | PSend _ | PWork => True | _ => False end -> to_do (j, q) = true).
  { intros W q' T1 Q. destruct j; try discriminate W; try discriminate T1; cbn [to_do] in *; apply andb_prop in T1 as [T1 _]; rewrite T1; destruct q; auto; destruct Q. }
  assert (V : asked (with_tasks c (del (sc_tasks c) i))) by (apply asked_tasks; auto; rewrite CD; destruct (to_do (j, q)); lia).
  assert (DU : is_win j = true -> forall q', match q' with PStart | PSend _ | PWork => False | _ => True end -> asked (with_tasks c (upd (sc_tasks c) i (j, q')))).
  { intros W q' Q. apply asked_tasks; [exact H|apply JU|]. rewrite CU, (DN W q' Q). destruct (to_do (j, q)); lia. }
  assert (MU : is_win j = true -> forall q', match q with PStart | PSend _ | PWork => True | _ => False end -> asked (with_tasks c (upd (sc_tasks c) i (j, q')))).
  { intros W q' Q. apply asked_tasks; [exact H|apply JU|]. rewrite CU. pose proof (UP W q') as X. destruct (to_do (j, q')); [rewrite X by auto; lia|]. destruct (to_do (j, q)); lia. }
  assert (CH : forall c' l, asked c' -> asked (with_chans c' l)) by auto.
  destruct (on_task_step pr o i c j q N) as [W F|Ej|it W I1 C1|g W Q|W Q S'|W Q|k r it code a Ej Eq I1 C1 Ec Ek Ea|s' its w W Eq Nj SS It Wi|its a k Eq W It|g W Q|W Q].
  - exact V.
  - exact V.
  - apply asked_item; auto; [exact (item_own o j _ it I1 J)|]. rewrite CD. pose proof (item_one o j it q I1 (or_introl W)). lia.
  - assert (QQ : match q with PStart | PSend _ | PWork => True | _ => False end) by (destruct Q as [[-> _]| ->]; exact Logic.I).
    unfold try_send. destruct (ch_closed _); [exact V|]. destruct (_ <? _); [|apply MU; auto]. apply CH, MU; auto.
  - exact (DU W PStuck Logic.I).
  - exact (DU W PRelease Logic.I).
  - subst q. assert (W : is_win j = true) by (subst j; reflexivity). apply asked_item; auto; [apply JU|exact (item_own o j _ it I1 J)|]. rewrite CU. rewrite (DN W (if code =? 0 then PReport a else PRelease)) by (destruct (code =? 0); exact Logic.I).
    pose proof (item_one o j it PWork I1 (or_intror eq_refl)). lia.
  - subst q. assert (M : asked (put c its (upd (sc_tasks c) i (j, PRelease)))).
    { destruct It as [->|(it & -> & I1 & CN)].
      - assert (R1 : asked (with_tasks c (upd (sc_tasks c) i (j, PRelease)))) by (apply DU; auto). unfold asked, put in *. cbn [sc_tasks sc_queue sc_log with_tasks] in *. rewrite app_nil_r. exact R1.
      - apply asked_item; auto; [apply JU|exact (item_own o j _ it I1 J)|]. rewrite CU, (DN W PRelease Logic.I). pose proof (item_one o j it PWork I1 (or_intror eq_refl)). lia. }
    exact M.
  - destruct It as [->|(b & -> & I1 & CN)].
    + assert (R1 : asked (with_tasks c (upd (sc_tasks c) i (j, PRelease)))) by (apply DU; auto). unfold asked, put in *. cbn [sc_tasks sc_queue sc_log with_tasks] in *. rewrite app_nil_r. exact R1.
    + apply asked_item; auto; [apply JU|exact Logic.I|]. rewrite CU, (DN W PRelease Logic.I). change (waits_one (KReport k, b, CbReport)) with false. destruct (to_do (j, q)); lia.
  - unfold try_recv. destruct (_ <? _); [apply CH; exact V|]. destruct (ch_closed _); [exact V|]. apply DU; auto.
  - exact H.
Qed.
Lemma asked_write o c c' : asked c -> on_write o c = Ok c' -> asked c'.
Proof.
  intros H E. unfold on_write in E. destruct (sc_open c); [|injection E as <-; exact H].
  destruct (sc_queue c) as [|[[kd b] cb0] r] eqn:Q; [injection E as <-; exact H|].
  assert (K : asked (note (with_queue c r) (OOut kd b))).
  { destruct H as [A B C D F]. rewrite Q in *. rewrite count_cons in F. unfold waits_one at 1 in F. cbn [fst] in F.
    assert (G : count out_one (sc_log c ++ [OOut kd b]) + count waits_one r + count to_do (sc_tasks c) <= count got_one (sc_log c ++ [OOut kd b])).
    { rewrite !count_app, !count_one. cbn [out_one got_one]. lia. }
    split; cbn [note with_queue sc_tasks sc_queue sc_log]; auto.
    - intros it Hi. apply B. right. exact Hi.
    - intros kd' b' X. apply in_app_or in X as [X|[X|[]]]; [auto|]. injection X as <- <-. apply (B (kd, b, cb0)). left. reflexivity.
    - intros l1 l2 X. destruct l2 as [|y l2].
      + rewrite app_nil_r in X. subst l1. pose proof (count_nonneg waits_one r). pose proof (count_nonneg to_do (sc_tasks c)). lia.
      + apply PropFate.snoc_split in X as [(l3 & X)|[-> _]]; [exact (D _ _ X)|]. apply (D _ []). rewrite app_nil_r. reflexivity. }
  set (c1 := note _ _) in *. clearbody c1.
  assert (S1 : forall s w ch, asked (SConn (sc_buf c1) (sc_open c1) s ch (sc_tasks c1) (sc_queue c1) w (sc_log c1))) by (intros; exact K).
  destruct cb0; cbn [callback] in E.
  - destruct ac as [ac|]; destruct (code =? 0); try discriminate; try (injection E as <-; exact (S1 _ true (sc_chans c1))).
    apply bind_ok in E as (c2 & E2 & E). injection E as <-. unfold completeLogin in E2. destruct (_ <? 0) eqn:WN; [discriminate|]. injection E2 as <-.
    apply asked_note; [|discriminate]. exact (S1 _ _ _).
  - injection E as <-. destruct (code =? 0); [|exact K]. exact (S1 _ (sc_wish c1) (sc_chans c1)).
  - injection E as <-. exact (S1 _ (sc_wish c1) (sc_chans c1)).
  - injection E as <-. exact (S1 _ (sc_wish c1) (sc_chans c1)).
  - injection E as <-. exact (S1 _ true (sc_chans c1)).
  - injection E as <-. exact (S1 _ (sc_wish c1) (sc_chans c1)).
  - injection E as <-. exact (S1 _ (sc_wish c1) (sc_chans c1)).
  - injection E as <-. exact (S1 _ true (sc_chans c1)).
Qed.
Lemma asked_spawn0 c j : asked c -> job_own (j, PStart) -> to_do (j, PStart) = false -> asked (spawn c j).
Proof.
  intros H J T1. apply asked_tasks; [exact H| |].
  - intros t Ht. apply in_app_or in Ht as [Ht|[<-|[]]]; [|exact J]. apply H. exact Ht.
  - rewrite count_app, count_one, T1. lia.
Qed.
(** A packet received may be the business of one goroutine. *)
Lemma asked_serve c k j : asked c -> job_own (j, PStart) -> (to_do (j, PStart) = true -> f k = true) -> asked (spawn (note c (OGot k)) j).
Proof.
  intros H J T1. assert (H1 : asked (note c (OGot k))) by (apply asked_note; [exact H|discriminate]). destruct H as [A B C D E]. destruct H1 as [A' B' C' D' E'].
  split; cbn [spawn with_tasks note sc_tasks sc_queue sc_log] in *; auto.
  - intros t Ht. apply in_app_or in Ht as [Ht|[<-|[]]]; auto.
  - rewrite !count_app, !count_one. cbn [out_one got_one]. destruct (to_do (j, PStart)); [rewrite T1 by reflexivity; lia|]. destruct (f k); lia.
Qed.
Lemma asked_step c e c' : asked c -> (forall b, o_dly (snd e) = Some b -> command b = deliver_command p) -> step pr c e = Ok c' -> asked c'.
Proof.
  intros H Hg E. destruct e as [[seg|i| | |] o]; cbn [step fst snd] in *.
  - apply on_recv_step in E.
    assert (WB : forall c1 b, asked c1 -> asked (with_buf c1 b)) by auto.
    destruct E as [O1|O1 F|O1 F|k rest O1 F N|k rest h a c1 O1 F Hin Hc HA]; auto.
    + apply asked_close, WB. exact H.
    + assert (G : asked (with_buf c1 rest)).
      { apply WB. assert (SV : forall j x, asked (spawn (note c (OGot k)) j) -> asked (spawn (note (note c (OGot k)) (OServe k x)) j)).
        { intros j x X. apply (asked_note _ (OServe k x)) in X; [exact X|discriminate]. }
        inversion HA; subst.
        - apply asked_note; [exact H|discriminate].
        - apply asked_serve; [exact H|unfold job_own; cbn [fst]; rewrite <- Hc; destruct p; reflexivity|cbn; auto].
        - apply SV, asked_serve; [exact H|unfold job_own, is_submit; cbn [fst]; rewrite <- Hc; destruct p; reflexivity|cbn; auto].
        - apply asked_note; [apply asked_note; [exact H|discriminate]|discriminate].
        - apply SV, asked_serve; [exact H|unfold job_own, is_submit; cbn [fst]; rewrite <- Hc; destruct p; reflexivity|cbn; rewrite andb_true_r; auto].
        - apply SV. match goal with D : decode_other _ _ _ = Ok ?j |- _ => destruct p, h; cbn [decode_other] in D; apply bind_ok in D as (x & _ & D); injection D as <-;
            (apply asked_serve; [exact H|exact Logic.I|cbn; rewrite ?andb_true_r; auto; discriminate]) end. }
      destruct a; [exact G|apply asked_close; exact G].
  - injection E as <-. apply asked_task; auto.
  - eapply asked_write; eauto.
  - injection E as <-. unfold on_tick. destruct (negb _); [exact H|]. destruct (_ || _); [destruct (o_acc o); [apply asked_spawn0|]; solve [exact H|exact Logic.I|reflexivity]|].
    destruct (se_stat (sc_sess c)); try exact H. assert (H1 : asked (if o_acc o then spawn c JHeart else c)) by (destruct (o_acc o); [apply asked_spawn0|]; solve [exact H|exact Logic.I|reflexivity]).
    destruct (o_dly o) as [b|] eqn:DL; [|exact H1]. destruct (o_acc2 o); [|exact H1]. apply asked_spawn0; [exact H1| |reflexivity].
    unfold job_own. cbn [fst]. rewrite (Hg b eq_refl). destruct p; cbn; auto.
  - injection E as <-. apply asked_close. exact H.
Qed.
Lemma asked_run es : forall c c', delivers p es -> asked c -> run pr c es = Ok c' -> asked c'.
Proof.
  induction es as [|e es IH]; intros c c' V H E; cbn [run] in E; [congruence|]. apply bind_ok in E as (c1 & E1 & E2).
  apply (IH c1); [exact (Forall_inv_tail V)| |exact E2]. apply (asked_step c e c1 H); [|exact E1]. exact (Forall_inv V).
Qed.
Lemma asked_opened now : asked (opened now).
Proof.
  split; cbn [opened sc_tasks sc_queue sc_log].
  - intros t [].
  - intros it [].
  - intros kd b [].
  - intros l1 l2 X. symmetry in X. apply app_eq_nil in X as [-> _]. cbn. lia.
  - cbn. lia.
Qed.
End Asked.

(** ** From the packet answered to the octets *)
Lemma cut4 (l : bytes) : length l = 4%nat -> exists a b c d, l = [a; b; c; d].
Proof. intros H. destruct l as [|a [|b [|c [|d [|e l]]]]]; try discriminate H. eauto. Qed.
Lemma head_octets a w r n : length a = 4%nat -> length w = 4%nat -> command (a ++ w ++ r) = w /\ octs (a ++ w ++ r) 8 n = firstn n r /\ answering (a ++ w ++ r) = (128 + nth 0 w 0) :: skipn 1 w.
Proof. intros A W. apply cut4 in A as (a1 & a2 & a3 & a4 & ->). apply cut4 in W as (w1 & w2 & w3 & w4 & ->). cbn [app]. split; [reflexivity|]. split; reflexivity. Qed.
Lemma octs_more b i n m : octs b i (n + m) = octs b i n ++ octs b (i + n) m.
Proof.
  unfold octs. revert b. induction i as [|i IH]; intros b; [|destruct b as [|x b]; [rewrite !skipn_nil, !firstn_nil; reflexivity|cbn [skipn plus]; apply IH]].
  change (0 + n)%nat with n. cbn [skipn]. revert b. induction n as [|n IH]; intros b; [reflexivity|]. destruct b as [|x b]; [rewrite skipn_nil, !firstn_nil; reflexivity|].
  change (S n + m)%nat with (S (n + m)). cbn [firstn app skipn]. f_equal. apply IH.
Qed.
Lemma head12 b a w n : firstn 12 b = a ++ w ++ n -> length a = 4%nat -> length w = 4%nat -> length n = 4%nat -> command b = w /\ octs b 8 4 = n.
Proof.
  intros H La Lw Ln. split; [exact (PropFate.oct4 b a w n H La Lw)|].
  assert (X : octs b 8 4 = octs (firstn 12 b) 8 4) by (unfold octs; rewrite skipn_firstn_comm, firstn_firstn; reflexivity).
  rewrite X, H. destruct (head_octets a w n 4 La Lw) as (_ & Y & _). rewrite Y. apply firstn_all2. lia.
Qed.
Lemma number_of p k : number p (octets_of k) = be 4 (pk_seq k) ++ match p with P_SGIP => firstn 8 (pk_body k) | _ => [] end.
Proof.
  unfold number, octets_of. destruct (head_octets (be 4 (zlen (pk_body k) + 12)) (be 4 (pk_cmd k)) (be 4 (pk_seq k) ++ pk_body k)
    (match p with P_SGIP => 12 | _ => 4 end) (length_be _ _) (length_be _ _)) as (_ & Y & _). rewrite Y.
  rewrite firstn_app, length_be. destruct p; cbn [Nat.sub]; rewrite (firstn_all2 (be 4 _)) by (rewrite length_be; lia); rewrite ?firstn_O; reflexivity.
Qed.
Lemma answering_of k : answering (octets_of k) = (128 + nth 0 (be 4 (pk_cmd k)) 0) :: skipn 1 (be 4 (pk_cmd k)).
Proof. unfold octets_of. apply (head_octets _ _ _ 0%nat); apply length_be. Qed.
Lemma wire_head p k cmd body : (p = P_SGIP -> firstn 8 body = firstn 8 (pk_body k)) -> be 4 cmd = (128 + nth 0 (be 4 (pk_cmd k)) 0) :: skipn 1 (be 4 (pk_cmd k)) ->
  command (wire_of cmd (pk_seq k) body) = answering (octets_of k) /\ number p (wire_of cmd (pk_seq k) body) = number p (octets_of k).
Proof.
  intros B C. rewrite answering_of, number_of. unfold wire_of, number. rewrite <- ?app_assoc.
  match goal with |- context [command (?a ++ ?w ++ ?r)] => destruct (head_octets a w r (match p with P_SGIP => 12 | _ => 4 end) (length_be _ _) (length_be _ _)) as (X & Y & _) end.
  rewrite X, Y. split; [exact C|]. rewrite firstn_app, length_be. destruct p; cbn [Nat.sub]; rewrite (firstn_all2 (be 4 (pk_seq k))) by (rewrite length_be; lia); rewrite ?firstn_O; try reflexivity.
  rewrite B by reflexivity. reflexivity.
Qed.
Lemma response_cmd b x r : command b = x :: r -> nth 4 b 0 = x.
Proof. unfold command, octs. destruct b as [|b0 [|b1 [|b2 [|b3 [|b4 b]]]]]; cbn; try discriminate. intros H. congruence. Qed.
Lemma first12 p k b a w : firstn 12 b = a ++ w ++ be 4 (pk_seq k) -> length a = 4%nat -> length w = 4%nat ->
  (p = P_SGIP -> firstn 8 (skipn 12 b) = firstn 8 (pk_body k)) -> w = (128 + nth 0 (be 4 (pk_cmd k)) 0) :: skipn 1 (be 4 (pk_cmd k)) ->
  command b = answering (octets_of k) /\ number p b = number p (octets_of k).
Proof.
  intros H La Lw S8 W. destruct (head12 b a w _ H La Lw (length_be _ _)) as [X Y]. rewrite answering_of, number_of, X. split; [exact W|]. unfold number. destruct p.
  - rewrite Y, app_nil_r. reflexivity.
  - change 12%nat with (4 + 8)%nat. rewrite octs_more, Y. f_equal. apply S8. reflexivity.
  - rewrite Y, app_nil_r. reflexivity.
Qed.
(** Every packet written: an answer to the packet it is for, or one of the server's own. *)
Definition for_packet (kd : okind) : option packet := match kd with KLogin k _ | KSubmit k _ _ | KActive k | KTerm k => Some k | _ => None end.
Lemma written pr now es c kd b : segs_ok es -> PropFate.values_ok (pr_p pr) es -> delivers (pr_p pr) es -> run pr (opened now) es = Ok c -> In (OOut kd b) (sc_log c) ->
  match for_packet kd with
  | Some k => command b = answering (octets_of k) /\ number (pr_p pr) b = number (pr_p pr) (octets_of k) /\ In (command b) (answered_commands (pr_p pr))
  | None => In (command b) (own_commands (pr_p pr))
  end.
Proof.
  intros S1 V D R1 L. pose proof (as_log _ _ _ _ _ (asked_run pr (fun _ => true) es _ _ D (asked_opened pr (fun _ => true) now) R1) kd b L) as O1.
  assert (PG : forall k, (kd = KActive k \/ kd = KTerm k) -> command b = answering (octets_of k) /\ number (pr_p pr) b = number (pr_p pr) (octets_of k) /\ In (command b) (answered_commands (pr_p pr))).
  { intros k HK. destruct (PropPong.C107_answers pr now es c S1 R1) as [_ X]. destruct (X k kd b L HK) as [Y _]. clear X.
    unfold PropPong.asked in Y. destruct (pr_p pr) eqn:P; repeat match type of Y with (if ?x =? ?y then _ else _) = _ => destruct (x =? y) eqn:? end; try discriminate Y;
      match type of Y with Some ?w = Some _ => assert (Z1 : b = w) by congruence end; clear Y; rewrite Z1 in *; clear Z1 b;
      repeat match goal with E : (_ =? _) = true |- _ => apply Z.eqb_eq in E end;
      match goal with E : pk_cmd k = _ |- context [wire_of ?cmd (pk_seq k) ?body] =>
        destruct (wire_head (pr_p pr) k cmd body) as [W1 W2]; [try (rewrite P; discriminate); intros _; rewrite ?firstn_firstn; reflexivity|rewrite E; vm_compute; reflexivity|] end;
      rewrite P in W2; (split; [exact W1|split; [exact W2|]]); rewrite W1, answering_of; match goal with E : pk_cmd k = _ |- _ => rewrite E end; vm_compute; auto 6. }
  destruct kd; cbn [for_packet own_one] in *; auto.
  - destruct (PropWhy.C101_why pr now es c k code b S1 R1 L) as [X _].
    assert (A : command b = answering (octets_of k) /\ number (pr_p pr) b = number (pr_p pr) (octets_of k)).
    { destruct (pr_p pr) eqn:P; destruct X as [X Y]; (eapply first12; [exact X|apply length_be|reflexivity| |rewrite O1; vm_compute; reflexivity]); try discriminate. intros _. apply Y. }
    destruct A as [A1 A2]. split; [exact A1|split; [exact A2|]]. rewrite A1, answering_of, O1. destruct (pr_p pr); vm_compute; auto.
  - destruct (C51_answers pr now es c S1 (PropFate.values_ids _ _ V) R1) as (_ & X & _). destruct (X _ _ _ _ L) as [Y _]. clear X. unfold is_submit in O1.
    assert (A : command b = answering (octets_of k) /\ number (pr_p pr) b = number (pr_p pr) (octets_of k)).
    { destruct (pr_p pr) eqn:P; destruct Y as [X Y]; (eapply first12; [exact X|apply length_be|reflexivity| |rewrite O1; vm_compute; reflexivity]); try discriminate. intros _. apply Y. }
    destruct A as [A1 A2]. split; [exact A1|split; [exact A2|]]. rewrite A1, answering_of, O1. destruct (pr_p pr); vm_compute; auto.
  - destruct (PropFate.told_log pr now es c (KReport k) b S1 V R1 L) as (X & _ & _ & NS). cbn iota in X. unfold PropFate.reported in X.
    destruct (pr_p pr); [|congruence|]; apply andb_prop in X as [X _]; apply PropFate.same_iff in X; unfold command, octs; unfold PropFate.oct in X; rewrite X; cbn; auto.
Qed.

(** ** Theorems *)
(** C120: each packet written is one of the server's own requests, or it answers a packet received before it:
    its command is that one's with the top bit set and it has its sequence number. *)
Theorem C120_kinds : forall pr now es c pre kd b post, segs_ok es -> PropFate.values_ok (pr_p pr) es -> delivers (pr_p pr) es -> run pr (opened now) es = Ok c ->
  sc_log c = pre ++ OOut kd b :: post ->
  (is_response b = false /\ In (command b) (own_commands (pr_p pr))) \/
  (is_response b = true /\ In (command b) (answered_commands (pr_p pr)) /\
   exists k, In (OGot k) pre /\ command b = answering (octets_of k) /\ number (pr_p pr) b = number (pr_p pr) (octets_of k)).
Proof.
  intros pr now es c pre kd b post S1 V D R1 L.
  assert (IN : In (OOut kd b) (sc_log c)) by (rewrite L; apply in_or_app; right; left; reflexivity).
  pose proof (written pr now es c kd b S1 V D R1 IN) as W. destruct (for_packet kd) as [k|] eqn:K.
  - right. destruct W as (W1 & W2 & W3). split.
    + unfold is_response. assert (X : nth 4 b 0 = 128) by (destruct (pr_p pr); cbn in W3; repeat destruct W3 as [W3|W3]; try (symmetry in W3; exact (response_cmd _ _ _ W3)); destruct W3). rewrite X. reflexivity.
    + split; [exact W3|]. exists k. split; [|auto].
      set (f := same_pk k).
      pose proof (as_pre _ _ _ _ _ (asked_run pr f es _ _ D (asked_opened pr f now) R1) (pre ++ [OOut kd b]) post) as P. rewrite <- app_assoc in P. specialize (P L).
      rewrite !count_app, !count_one in P. cbn [out_one got_one] in P. assert (F : for_one f kd = true) by (destruct kd; try discriminate K; cbn in K |- *; injection K as ->; apply same_pk_iff; reflexivity).
      rewrite F in P. pose proof (count_nonneg (out_one f) pre). assert (G : count (got_one f) pre <> 0) by lia.
      destruct (existsb (got_one f) pre) eqn:E; [|exfalso; apply G, count_zero; intros x Hx; destruct (got_one f x) eqn:Y; [|reflexivity]; rewrite <- E; symmetry; apply existsb_exists; eauto].
      apply existsb_exists in E as (x & Hx & Gx). destruct x as [k'| | | |]; try discriminate Gx. cbn [got_one] in Gx. apply same_pk_iff in Gx. subst k'. exact Hx.
  - left. split; [|exact W]. unfold is_response. assert (X : nth 4 b 0 = 0) by (destruct (pr_p pr); cbn in W; repeat destruct W as [W|W]; try (symmetry in W; exact (response_cmd _ _ _ W)); destruct W). rewrite X. reflexivity.
Qed.
Print Assumptions C120_kinds.
(** C120, counted: at any moment, for any choice of commands and sequence numbers, no more answers with such
    a command and number have been written than requests for them received. *)
Theorem C120_counted : forall pr now es c pre post, segs_ok es -> PropFate.values_ok (pr_p pr) es -> delivers (pr_p pr) es -> run pr (opened now) es = Ok c ->
  sc_log c = pre ++ post -> forall g, count (responds (pr_p pr) g) pre <= count (requests (pr_p pr) g) pre.
Proof.
  intros pr now es c pre post S1 V D R1 L g. set (f := fun k => g (answering (octets_of k)) (number (pr_p pr) (octets_of k))).
  pose proof (as_pre _ _ _ _ _ (asked_run pr f es _ _ D (asked_opened pr f now) R1) pre post L) as P.
  assert (A : count (responds (pr_p pr) g) pre <= count (out_one f) pre).
  { apply PropFate.count_in_le. intros o Ho H. destruct o as [| | |kd b|]; try discriminate H. cbn [responds out_one] in *. apply andb_prop in H as [H1 H2].
    assert (IN : In (OOut kd b) (sc_log c)) by (rewrite L; apply in_or_app; left; exact Ho).
    pose proof (written pr now es c kd b S1 V D R1 IN) as W. destruct (for_packet kd) as [k|] eqn:K.
    - destruct W as (W1 & W2 & _). rewrite W1, W2 in H2. destruct kd; try discriminate K; cbn in K |- *; injection K as ->; exact H2.
    - exfalso. unfold is_response in H1. assert (X : nth 4 b 0 = 0) by (destruct (pr_p pr); cbn in W; repeat destruct W as [W|W]; try (symmetry in W; exact (response_cmd _ _ _ W)); destruct W). rewrite X in H1. discriminate. }
  assert (B : count (got_one f) pre <= count (requests (pr_p pr) g) pre) by (apply count_le; intros o Ho; destruct o; auto).
  lia.
Qed.
Print Assumptions C120_counted.
(** C120, so a client that never uses a sequence number twice with a command never gets two answers
    under the same command and number: each answer can be matched to its request. *)
Definition heads_in (p : proto) (lg : list obs) : list (bytes * bytes) :=
  flat_map (fun o => match o with OGot k => [(answering (octets_of k), number p (octets_of k))] | _ => [] end) lg.
Definition heads_out (p : proto) (lg : list obs) : list (bytes * bytes) :=
  flat_map (fun o => match o with OOut _ b => if is_response b then [(command b, number p b)] else [] | _ => [] end) lg.
Definition pair_dec (x y : bytes * bytes) : {x = y} + {x <> y}.
Proof. decide equality; apply (list_eq_dec Z.eq_dec). Defined.
Definition pick (x : bytes * bytes) (u v : bytes) : bool := if pair_dec (u, v) x then true else false.
Lemma occ_count (h : obs -> list (bytes * bytes)) (q : obs -> bool) x lg : (forall o, Z.of_nat (count_occ pair_dec (h o) x) = if q o then 1 else 0) ->
  Z.of_nat (count_occ pair_dec (flat_map h lg) x) = count q lg.
Proof.
  intros H. induction lg as [|o lg IH]; [reflexivity|]. cbn [flat_map]. rewrite count_occ_app, count_cons, Nat2Z.inj_add, H, IH. reflexivity.
Qed.
Lemma occ_one y x : Z.of_nat (count_occ pair_dec [y] x) = if pair_dec y x then 1 else 0.
Proof. cbn [count_occ]. destruct (pair_dec y x); reflexivity. Qed.
Theorem C120_distinct : forall pr now es c pre post, segs_ok es -> PropFate.values_ok (pr_p pr) es -> delivers (pr_p pr) es -> run pr (opened now) es = Ok c ->
  sc_log c = pre ++ post -> NoDup (heads_in (pr_p pr) pre) -> NoDup (heads_out (pr_p pr) pre).
Proof.
  intros pr now es c pre post S1 V D R1 L N. apply (NoDup_count_occ pair_dec). intros x. apply (proj1 (NoDup_count_occ pair_dec _)) with (x := x) in N.
  pose proof (C120_counted pr now es c pre post S1 V D R1 L (pick x)) as C.
  rewrite <- (occ_count (fun o => match o with OOut _ b => if is_response b then [(command b, number (pr_p pr) b)] else [] | _ => [] end) (responds (pr_p pr) (pick x)) x) in C;
    [rewrite <- (occ_count (fun o => match o with OGot k => [(answering (octets_of k), number (pr_p pr) (octets_of k))] | _ => [] end) (requests (pr_p pr) (pick x)) x) in C|].
  - unfold heads_in in N. unfold heads_out. lia.
  - intros o. destruct o; try reflexivity. rewrite occ_one. cbn [requests]. unfold pick. destruct (pair_dec _ _); reflexivity.
  - intros o. destruct o; try reflexivity. cbn [responds]. destruct (is_response b); cbn [andb]; [|reflexivity]. rewrite occ_one. unfold pick. destruct (pair_dec _ _); reflexivity.
Qed.
Print Assumptions C120_distinct.
(** A login, a submit and its report: two answers, each to its request; the report is the server's own. *)
Definition heads_case (p : proto) : option (list (bytes * bytes) * list (bytes * bytes) * list bytes) :=
  match run (PropEnd.end_pr p) (opened 0) (PropFate.fate_es p 1 false false) with
  | Ok c => Some (heads_in p (sc_log c), heads_out p (sc_log c), flat_map (fun o => match o with OOut _ b => [command b] | _ => [] end) (sc_log c))
  | _ => None
  end.
Example C120_case :
  heads_case P_CMPP = Some ([([128; 0; 0; 1], [0; 0; 0; 7]); ([128; 0; 0; 4], [0; 0; 0; 7])], [([128; 0; 0; 1], [0; 0; 0; 7]); ([128; 0; 0; 4], [0; 0; 0; 7])],
    [[128; 0; 0; 1]; [128; 0; 0; 4]; [0; 0; 0; 5]]) /\
  heads_case P_SGIP = Some ([([128; 0; 0; 1], [0; 0; 0; 1; 0; 0; 0; 2; 0; 0; 0; 3])], [([128; 0; 0; 1], [0; 0; 0; 1; 0; 0; 0; 2; 0; 0; 0; 3])], [[128; 0; 0; 1]]) /\
  heads_case P_SMGP = Some ([([128; 0; 0; 1], [0; 0; 0; 7]); ([128; 0; 0; 2], [0; 0; 0; 7])], [([128; 0; 0; 1], [0; 0; 0; 7]); ([128; 0; 0; 2], [0; 0; 0; 7])],
    [[128; 0; 0; 1]; [128; 0; 0; 2]; [0; 0; 0; 3]]).
Proof. vm_compute. repeat split. Qed.
Example C120_hypotheses : forall p, segs_ok (PropFate.fate_es p 1 false false) /\ PropFate.values_ok p (PropFate.fate_es p 1 false false) /\ delivers p (PropFate.fate_es p 1 false false).
Proof.
  intros p. split; [|split].
  - unfold segs_ok. assert (X : forallb (fun e : event * orc => match fst e with ERecv s => forallb (fun x => (0 <=? x) && (x <? 256)) s | _ => true end) (PropFate.fate_es p 1 false false) = true) by (destruct p; vm_compute; reflexivity).
    rewrite forallb_forall in X. apply Forall_forall. intros e He. specialize (X e He). destruct (fst e); auto. rewrite forallb_forall in X. apply Forall_forall. intros x Hx. specialize (X x Hx). cbv beta in X. apply andb_prop in X as [X1 X2]. apply Z.leb_le in X1. apply Z.ltb_lt in X2. split; assumption.
  - destruct p; repeat constructor; intros; discriminate.
  - destruct p; repeat constructor; intros; discriminate.
Qed.

(** * PropWire: property C92 (a query shows what the send put on the wire, and a broken
    session does not take the process down).  Model: ClientModel.v. *)
From Verif Require Import Base UtilsModel SpecText OptionsModel CmppModel SgipModel SmgpModel FrameModel
  SpecClient ClientModel ClientProofs PropClient.

(** ** Specification *)
(** The packets send [t] put on the wire, oldest first: the number it was at and the packet's
    number in the protocol [ps] of the session it went to. *)
Definition sw_step (ps : list proto) (t : nat) (x : bytes * list (bytes * Z)) (o : cobs) : bytes * list (bytes * Z) :=
  match o with
  | OPick t' phone => if (t' =? t)%nat then (phone, snd x) else x
  | OWrote t' i b => if (t' =? t)%nat then (fst x, snd x ++ [(fst x, wire_key (nth i ps P_CMPP) b)]) else x
  | _ => x
  end.
Definition on_wire (ps : list proto) (t : nat) (log : list cobs) : list (bytes * Z) := snd (fold_left (sw_step ps t) log ([], [])).
(** Send [t] met a failing write. *)
Definition broke (t : nat) (log : list cobs) : Prop := exists i, In (OBroke t i) log.

(** ** What holds in every run *)
Definition sw ps t log := fold_left (sw_step ps t) log ([], []).
Definition about (t : nat) (o : cobs) : bool :=
  match o with OPick t' _ | OWrote t' _ _ | ORec t' _ _ _ | OBroke t' _ => (t' =? t)%nat | _ => false end.
Lemma sw_app ps t a b : sw ps t (a ++ b) = fold_left (sw_step ps t) b (sw ps t a).
Proof. unfold sw. apply fold_left_app. Qed.
Lemma sw_other ps t l : forallb (fun o => negb (about t o)) l = true -> forall x, fold_left (sw_step ps t) l x = x.
Proof.
  induction l as [|o l IH]; intros H x; [reflexivity|]. cbn [forallb] in H. apply andb_prop in H. destruct H as [A B]. cbn [fold_left]. rewrite IH by exact B.
  destruct o; try reflexivity; cbn in *; destruct (t0 =? t)%nat; try reflexivity; discriminate A.
Qed.
Lemma hv_other t l log : forallb (fun o => negb (about t o)) l = true -> hv t (log ++ l) = hv t log.
Proof.
  intros H. rewrite hv_app. generalize (hv t log). induction l as [|o l IH]; intros x; [reflexivity|]. cbn [forallb] in H. apply andb_prop in H. destruct H as [A B]. cbn [fold_left]. rewrite IH by exact B.
  destruct x as [f u]. destruct o; try reflexivity; cbn in *; destruct (t0 =? t)%nat; try reflexivity; discriminate A.
Qed.

Definition wire_ok (ps : list proto) (log : list cobs) (t : nat) (s : sender) : Prop :=
  match sn_ph s with
  | SPart _ phone _ done => fst (sw ps t log) = phone /\ (length (sn_res s) + length done <= length (on_wire ps t log))%nat
      /\ (~ broke t log -> on_wire ps t log = fst (hv t log) ++ snd (hv t log))
  | SWrote i phone b _ _ done => fst (sw ps t log) = phone /\ (length (sn_res s) + length done < length (on_wire ps t log))%nat
      /\ (~ broke t log -> on_wire ps t log = fst (hv t log) ++ snd (hv t log) ++ [(phone, wire_key (nth i ps P_CMPP) b)])
  | _ => (length (sn_res s) <= length (on_wire ps t log))%nat
      /\ (~ broke t log -> on_wire ps t log = fst (hv t log) ++ snd (hv t log))
  end.
Record winv (ps : list proto) (c : cstate) : Prop := {
  wi_ps : protos c = ps;
  wi_snd : forall t s, nth_error (ct_send c) t = Some s -> wire_ok ps (ct_log c) t s;
  wi_new : forall t, (length (ct_send c) <= t)%nat -> sw ps t (ct_log c) = ([], []) }.

Lemma wire_ext ps log l t s : forallb (fun o => negb (about t o)) l = true -> wire_ok ps log t s -> wire_ok ps (log ++ l) t s.
Proof.
  intros H W. unfold wire_ok, on_wire in *. fold (sw ps t (log ++ l)). fold (sw ps t log) in W. rewrite (sw_app ps t log l), (sw_other ps t l H), (hv_other t l log H).
  assert (B : ~ broke t (log ++ l) -> ~ broke t log) by (intros A (i & K); apply A; exists i; apply in_or_app; left; exact K).
  destruct (sn_ph s); intuition.
Qed.

(** One sender moved on, [l] was logged about it only. *)
Lemma winv_sender ps c c1 t s1 l : winv ps c -> (t < length (ct_send c))%nat ->
  protos c1 = protos c -> ct_send c1 = firstn t (ct_send c) ++ [s1] ++ skipn (S t) (ct_send c) -> ct_log c1 = ct_log c ++ l ->
  (forall t', t' <> t -> forallb (fun o => negb (about t' o)) l = true) -> wire_ok ps (ct_log c1) t s1 -> winv ps c1.
Proof.
  intros [A B C] L P S G O W. destruct (nth_error (ct_send c) t) as [s|] eqn:N; [|apply nth_error_None in N; lia].
  constructor.
  - congruence.
  - intros t' s' K. rewrite S, (nth_upd _ _ _ _ N) in K. destruct (t' =? t)%nat eqn:E.
    + apply Nat.eqb_eq in E. subst t'. injection K as <-. exact W.
    + apply Nat.eqb_neq in E. rewrite G. apply wire_ext; [apply O; exact E|]. apply B. exact K.
  - intros t' K. rewrite S, (len_upd _ _ _ _ N) in K. rewrite G, sw_app, sw_other; [apply C; exact K|]. apply O. lia.
Qed.
Lemma winv_quiet ps c c1 l : winv ps c -> protos c1 = protos c -> ct_send c1 = ct_send c -> ct_log c1 = ct_log c ++ l ->
  (forall t', forallb (fun o => negb (about t' o)) l = true) -> winv ps c1.
Proof.
  intros [A B C] P S G O. constructor.
  - congruence.
  - intros t s K. rewrite S in K. rewrite G. apply wire_ext; [apply O|]. apply B. exact K.
  - intros t K. rewrite S in K. rewrite G, sw_app, sw_other; [apply C; exact K|apply O].
Qed.
Lemma only_about t o : about t o = true -> (forall t', t' <> t -> forallb (fun o => negb (about t' o)) [o] = true).
Proof.
  intros A t' N. cbn. destruct o; try reflexivity; cbn in *; apply Nat.eqb_eq in A; subst;
    (destruct (t =? t')%nat eqn:E; [apply Nat.eqb_eq in E; congruence|reflexivity]).
Qed.
Lemma nth_in {A} (l : list A) t s : nth_error l t = Some s -> (t < length l)%nat.
Proof. intros H. apply nth_error_Some. congruence. Qed.

Lemma winv_step pr ps c e c1 : sinv c -> winv ps c -> cstep pr c e = Ok c1 -> winv ps c1.
Proof.
  intros SI I H. destruct e as [q msg ops phones|t choice d now|t ok now|t now|t|i cmd seq body o|i|h d now|d now|d now]; cbn [cstep] in H.
  - destruct phones as [|ph phones].
    + injection H as <-. apply (winv_quiet ps c _ [ORet 0]); auto.
    + injection H as <-. destruct I as [A B C]. constructor; cbn [ct_ca ct_sess ct_send ct_log]; auto.
      * intros t s K. destruct (Nat.lt_ge_cases t (length (ct_send c))) as [L|L].
        { rewrite nth_error_app1 in K by exact L. apply B. exact K. }
        rewrite nth_error_app2 in K by exact L. destruct (t - length (ct_send c))%nat eqn:E; [|destruct n; discriminate K]. cbn in K. injection K as <-.
        unfold wire_ok, on_wire. fold (sw ps t (ct_log c)). rewrite (C t L), (si_new _ SI t L). cbn. auto.
      * intros t L. rewrite app_length in L. apply C. lia.
  - destruct (nth_error (ct_send c) t) as [s|] eqn:N; [|injection H as <-; exact I].
    destruct (sn_ph s) eqn:PH; try (injection H as <-; exact I). destruct (sn_todo s) as [|phone rest] eqn:TD; [injection H as <-; exact I|].
    pose proof (wi_snd _ _ I t s N) as W. unfold wire_ok in W. rewrite PH in W. destruct W as [WL WE].
    assert (SW : sw ps t (ct_log c ++ [OPick t phone]) = (phone, on_wire ps t (ct_log c))).
    { rewrite sw_app. cbn [fold_left sw_step]. rewrite Nat.eqb_refl. reflexivity. }
    assert (HV : hv t (ct_log c ++ [OPick t phone]) = (fst (hv t (ct_log c)) ++ snd (hv t (ct_log c)), [])).
    { rewrite hv_app. cbn [fold_left]. destruct (hv t (ct_log c)) as [fin cur]. unfold hv_step. rewrite Nat.eqb_refl. reflexivity. }
    assert (BR : ~ broke t (ct_log c ++ [OPick t phone]) -> ~ broke t (ct_log c)) by (intros A (i & K); apply A; exists i; apply in_or_app; left; exact K).
    assert (OW : on_wire ps t (ct_log c ++ [OPick t phone]) = on_wire ps t (ct_log c)) by (unfold on_wire at 1; fold (sw ps t (ct_log c ++ [OPick t phone])); rewrite SW; reflexivity).
    assert (NX : wire_ok ps (ct_log c ++ [OPick t phone]) t (phase s rest (sn_res s) SNext)).
    { unfold wire_ok. cbn [phase sn_ph sn_res]. rewrite OW, HV. cbn [fst snd]. rewrite app_nil_r. auto. }
    destruct choice as [i|].
    + destruct (nth_error (ct_sess c) i) as [ss|] eqn:NS; [|injection H as <-; exact I]. destruct (HealthCheck ss); [|injection H as <-; exact I].
      destruct (cs_ac ss) as [ac|]; [|injection H as <-; exact I]. apply bind_ok in H as (parts & SG & H).
      destruct parts as [|x parts].
      * injection H as <-. destruct (used_rest (put_send c t (phase s rest (sn_res s) SNext)) i now) as (U1 & U2 & U3).
        apply (winv_sender ps c _ t (phase s rest (sn_res s) SNext) [OPick t phone] I (nth_in _ _ _ N)); unfold say; cbn [ct_send ct_log].
        -- exact (protos_used (put_send c t (phase s rest (sn_res s) SNext)) i now).
        -- rewrite U2. reflexivity.
        -- rewrite U3. reflexivity.
        -- apply only_about. cbn. apply Nat.eqb_refl.
        -- rewrite U3. exact NX.
      * injection H as <-. apply (winv_sender ps c _ t (phase s rest (sn_res s) (SPart i phone (x :: parts) [])) [OPick t phone] I (nth_in _ _ _ N)); auto.
        -- apply only_about. cbn. apply Nat.eqb_refl.
        -- unfold wire_ok. cbn [say put_send ct_log phase sn_ph sn_res length]. rewrite SW, OW, HV. cbn [fst snd]. rewrite app_nil_r, Nat.add_0_r. auto.
    + injection H as <-. apply (winv_sender ps c _ t (phase s rest (sn_res s) SNext) [OPick t phone] I (nth_in _ _ _ N)); auto.
      apply only_about. cbn. apply Nat.eqb_refl.
  - destruct (nth_error (ct_send c) t) as [s|] eqn:N; [|injection H as <-; exact I].
    destruct (sn_ph s) as [|i phone parts done|i phone b key parts done|] eqn:PH; try (injection H as <-; exact I). destruct parts as [|[enc key] r]; [injection H as <-; exact I|].
    destruct (nth_error (ct_sess c) i) as [ss|] eqn:NS; [|injection H as <-; exact I]. apply bind_ok in H as (b & B & H).
    pose proof (wi_snd _ _ I t s N) as W. unfold wire_ok in W. rewrite PH in W. destruct W as (WP & WL & WE).
    destruct ok.
    + injection H as <-. apply (winv_sender ps c _ t (phase s (sn_todo s) (sn_res s) (SWrote i phone b key r done)) [OWrote t i b] I (nth_in _ _ _ N)); auto.
      * apply only_about. cbn. apply Nat.eqb_refl.
      * assert (SW : sw ps t (ct_log c ++ [OWrote t i b]) = (phone, on_wire ps t (ct_log c) ++ [(phone, wire_key (nth i ps P_CMPP) b)])).
        { rewrite sw_app. cbn [fold_left sw_step]. rewrite Nat.eqb_refl, WP. reflexivity. }
        unfold wire_ok. cbn [say put_send ct_log phase sn_ph sn_res]. rewrite SW.
        assert (OW : on_wire ps t (ct_log c ++ [OWrote t i b]) = on_wire ps t (ct_log c) ++ [(phone, wire_key (nth i ps P_CMPP) b)]) by exact (f_equal snd SW). rewrite OW. cbn [fst snd].
        assert (HV : hv t (ct_log c ++ [OWrote t i b]) = hv t (ct_log c)) by (apply silent_hv; reflexivity). rewrite HV.
        split; [reflexivity|]. split; [rewrite app_length; cbn [length]; lia|]. intros NB. rewrite app_assoc. f_equal. apply WE. intros (j & K). apply NB. exists j. apply in_or_app. left. exact K.
    + apply bind_ok in H as (s1 & CL & H). injection H as <-. apply Close_keeps in CL.
      set (c2 := put_send (put_sess c i s1) t (phase s (sn_todo s) (sn_res s) SNext)). destruct (used_rest c2 i now) as (U1 & U2 & U3).
      apply (winv_sender ps c _ t (phase s (sn_todo s) (sn_res s) SNext) [OBroke t i] I (nth_in _ _ _ N)); unfold say; cbn [ct_send ct_log].
      * transitivity (protos c2); [exact (protos_used c2 i now)|]. unfold c2. exact (protos_put c i ss s1 NS CL).
      * rewrite U2. reflexivity.
      * rewrite U3. reflexivity.
      * apply only_about. cbn. apply Nat.eqb_refl.
      * rewrite U3. unfold wire_ok. cbn [c2 put_send put_sess ct_log phase sn_ph sn_res].
        assert (OW : on_wire ps t (ct_log c ++ [OBroke t i]) = on_wire ps t (ct_log c)) by (unfold on_wire; rewrite fold_left_app; reflexivity). rewrite OW.
        split; [lia|]. intros NB. exfalso. apply NB. exists i. apply in_or_app. right. left. reflexivity.
  - destruct (nth_error (ct_send c) t) as [s|] eqn:N; [|injection H as <-; exact I].
    destruct (sn_ph s) as [|i phone parts done|i phone b key r done|] eqn:PH; try (injection H as <-; exact I).
    pose proof (wi_snd _ _ I t s N) as W. unfold wire_ok in W. rewrite PH in W. destruct W as (WP & WL & WE).
    pose proof (si_snd _ SI t s N) as K. unfold sender_ok in K. rewrite PH in K. destruct K as (_ & (p & KP & _) & _). unfold protos in KP.
    destruct (nth_error (ct_sess c) i) as [ss|] eqn:NS; [|apply nth_error_None in NS; rewrite <- (map_length cs_p) in NS; apply nth_error_None in NS; congruence].
    pose proof (map_nth_error cs_p _ _ NS) as KP'.
    assert (PP : nth i ps P_CMPP = cs_p ss) by (rewrite <- (wi_ps _ _ I); apply nth_error_nth; exact KP').
    set (o := ORec t (cs_p ss) phone b) in *.
    assert (OW : on_wire ps t (ct_log c ++ [o]) = on_wire ps t (ct_log c)) by (unfold on_wire; rewrite fold_left_app; reflexivity).
    assert (HV : hv t (ct_log c ++ [o]) = (fst (hv t (ct_log c)), snd (hv t (ct_log c)) ++ [(phone, wire_key (nth i ps P_CMPP) b)])).
    { rewrite hv_app. cbn [fold_left]. destruct (hv t (ct_log c)) as [fin cur]. unfold o, hv_step. rewrite Nat.eqb_refl, PP. reflexivity. }
    assert (BR : ~ broke t (ct_log c ++ [o]) -> ~ broke t (ct_log c)) by (intros A (j & K); apply A; exists j; apply in_or_app; left; exact K).
    assert (SWF : fst (sw ps t (ct_log c ++ [o])) = phone) by (rewrite sw_app; exact WP).
    cbv zeta in H. destruct r as [|x r].
    + injection H as <-. match goal with |- winv ps (used ?c2 i now) => destruct (used_rest c2 i now) as (U1 & U2 & U3); pose proof (protos_used c2 i now) as U4 end.
      apply (winv_sender ps c _ t (phase s (sn_todo s) (sn_res s ++ done ++ [length (ca_heap (ct_ca c))]) SNext) [o] I (nth_in _ _ _ N)).
      * rewrite U4. reflexivity.
      * rewrite U2. reflexivity.
      * rewrite U3. reflexivity.
      * apply only_about. cbn. apply Nat.eqb_refl.
      * rewrite U3. unfold wire_ok. cbn [say put_ca put_send ct_log phase sn_ph sn_res]. rewrite OW, HV. cbn [fst snd].
        split; [rewrite !app_length; cbn [length]; lia|]. intros NB. apply WE. apply BR. exact NB.
    + injection H as <-.
      apply (winv_sender ps c _ t (phase s (sn_todo s) (sn_res s) (SPart i phone (x :: r) (done ++ [length (ca_heap (ct_ca c))]))) [o] I (nth_in _ _ _ N)); auto.
      * apply only_about. cbn. apply Nat.eqb_refl.
      * unfold wire_ok. cbn [say put_ca put_send ct_log phase sn_ph sn_res]. rewrite OW, HV, SWF. cbn [fst snd].
        split; [reflexivity|]. split; [rewrite app_length; cbn [length]; lia|]. intros NB. apply WE. apply BR. exact NB.
  - destruct (nth_error (ct_send c) t) as [s|] eqn:N; [|injection H as <-; exact I].
    destruct (sn_ph s) eqn:PH; try (injection H as <-; exact I). destruct (sn_todo s) as [|phone rest] eqn:TD; [|injection H as <-; exact I].
    injection H as <-. apply (winv_sender ps c _ t (phase s [] (sn_res s) SDone) [ORet (sn_q s)] I (nth_in _ _ _ N)); auto.
    pose proof (wi_snd _ _ I t s N) as W. apply (wire_ext ps (ct_log c) [ORet (sn_q s)]); [reflexivity|]. unfold wire_ok in *. rewrite PH in W. exact W.
  - destruct (nth_error (ct_sess c) i) as [ss|] eqn:NS; [|injection H as <-; exact I]. apply bind_ok in H as ([[s1 ca] out] & G & H). injection H as <-.
    apply handler_eff in G as [GP G]. eapply (winv_quiet ps c _ _ I); [exact (protos_put c i ss s1 NS GP)|reflexivity|reflexivity|].
    intros t'. cbn [forallb about negb andb]. apply forallb_forall. intros x X. apply in_map_iff in X as (y & <- & _). reflexivity.
  - destruct (nth_error (ct_sess c) i) as [ss|] eqn:NS; [|injection H as <-; exact I]. apply bind_ok in H as (s1 & CL & H). injection H as <-. apply Close_keeps in CL.
    apply (winv_quiet ps c _ [] I); auto; [exact (protos_put c i ss s1 NS CL)|cbn; rewrite app_nil_r; reflexivity].
  - injection H as <-. apply (winv_quiet ps c _ [] I); auto. cbn. rewrite app_nil_r. reflexivity.
  - injection H as <-. apply (winv_quiet ps c _ [] I); auto. cbn. rewrite app_nil_r. reflexivity.
  - injection H as <-. apply (winv_quiet ps c _ [] I); auto. cbn. rewrite app_nil_r. reflexivity.
Qed.
Lemma winv_run pr es : forall ps c c1, sinv c -> winv ps c -> crun pr c es = Ok c1 -> winv ps c1.
Proof.
  induction es as [|e es IH]; intros ps c c1 SI I H; cbn [crun] in H; [injection H as <-; exact I|].
  apply bind_ok in H as (c2 & S & H). exact (IH ps c2 c1 (sinv_step _ _ _ _ SI S) (winv_step _ _ _ _ _ SI I S) H).
Qed.
Lemma winv_start l : winv (map cs_p l) (cstart l).
Proof. constructor; [reflexivity| |reflexivity]. intros t s H. destruct t; discriminate H. Qed.

(** ** C92 *)
(** A finished send none of whose writes failed: querying it gives exactly the packets it put on
    the wire, in that order, each with its number. *)
Theorem C92_shown_partial : forall pr sessions es c t s, crun pr (cstart sessions) es = Ok c ->
  nth_error (ct_send c) t = Some s -> sn_ph s = SDone -> sole c t s -> unswept es (ca_heap (ct_ca c)) (sn_res s) ->
  ~ broke t (ct_log c) -> on_wire (map cs_p sessions) t (ct_log c) <> [] ->
  exists rs, Query (ct_ca c) (sn_q s) = Ok (Some rs)
    /\ map (fun r => (rt_phone r, rt_seq r)) rs = on_wire (map cs_p sessions) t (ct_log c).
Proof.
  intros pr sessions es c t s H N D SO U NB W. pose proof (winv_run pr es _ _ _ (sinv_start sessions) (winv_start sessions) H) as I.
  pose proof (wi_snd _ _ I t s N) as K. unfold wire_ok in K. rewrite D in K. destruct K as [_ K]. specialize (K NB).
  rewrite <- harvest_hv in K. rewrite K in W. destruct (C59_results_partial pr sessions es c t s H N D SO U W) as (rs & A & B & _).
  exists rs. split; [exact A|]. rewrite K. exact B.
Qed.

(** Never more than that: a query of a finished send gives at most as many results as the send
    put packets on the wire. *)
Theorem C92_no_more : forall pr sessions es c t s rs, crun pr (cstart sessions) es = Ok c ->
  nth_error (ct_send c) t = Some s -> sn_ph s = SDone -> sole c t s -> Query (ct_ca c) (sn_q s) = Ok (Some rs) ->
  (length rs <= length (on_wire (map cs_p sessions) t (ct_log c)))%nat.
Proof.
  intros pr sessions es c t s rs H N D SO Q. pose proof (winv_run pr es _ _ _ (sinv_start sessions) (winv_start sessions) H) as I.
  pose proof (sinv_run pr es _ _ (sinv_start sessions) H) as SI.
  pose proof (wi_snd _ _ I t s N) as K. unfold wire_ok in K. rewrite D in K. destruct K as [K _].
  unfold Query in Q. destruct (load Z.eqb (sn_q s) (ca_query (ct_ca c))) as [l|] eqn:L; [|discriminate Q].
  apply load_in in L as (k & E & X). apply Z.eqb_eq in E. subst k. destruct (si_qry _ SI _ _ X) as (t' & s' & N' & D' & Q' & R').
  assert (t' = t) by (apply (SO t' s' N' Q')). subst t'. assert (s' = s) by congruence. subst s'. subst l.
  assert (DL : forall h l, (length (deref h l) <= length l)%nat).
  { clear. intros h. induction l as [|p l IH]; cbn [deref length]; [lia|]. destruct (nth_error h p); cbn [length]; lia. }
  destruct (sn_res s) as [|p l]; [discriminate Q|]. injection Q as <-. specialize (DL (ca_heap (ct_ca c)) (p :: l)). unfold bytes in *. cbn [deref length] in *. lia.
Qed.

(** Refuted for every send that is at its last number and has already written parts of the
    message to it when a write fails: the parts on the wire are not in the query, which gives the
    packets of the numbers before, or crashes if there are none. *)
Theorem C92_refuted_lost : forall pr sessions es c t s i ss phone b key r done now,
  crun pr (cstart sessions) es = Ok c -> nth_error (ct_send c) t = Some s -> sn_ph s = SPart i phone ((Ok b, key) :: r) done ->
  sn_todo s = [] -> nth_error (ct_sess c) i = Some ss -> cs_con ss = true ->
  exists c1, crun pr c [CWrite t false now; CDone t] = Ok c1
    /\ (length (sn_res s) + length done <= length (on_wire (map cs_p sessions) t (ct_log c1)))%nat
    /\ match Query (ct_ca c1) (sn_q s) with
       | Ok (Some rs) => (length rs <= length (sn_res s))%nat /\ sn_res s <> []
       | Panic => sn_res s = []
       | _ => False
       end.
Proof.
  intros pr sessions es c t s i ss phone b key r done now H N PH TD NS CO.
  pose proof (winv_run pr es _ _ _ (sinv_start sessions) (winv_start sessions) H) as I.
  pose proof (wi_snd _ _ I t s N) as K. unfold wire_ok in K. rewrite PH in K. destruct K as (_ & K & _).
  assert (CL : exists s1, Close ss = Ok s1) by (unfold Close; rewrite CO; destruct (cs_stat ss); eauto). destruct CL as [s1 CL].
  set (c2 := say (used (put_send (put_sess c i s1) t (phase s (sn_todo s) (sn_res s) SNext)) i now) [OBroke t i]).
  assert (S1 : cstep pr c (CWrite t false now) = Ok c2).
  { cbn [cstep]. rewrite N, PH, NS. unfold reply_with. rewrite CO. cbn [bind]. rewrite CL. reflexivity. }
  destruct (used_rest (put_send (put_sess c i s1) t (phase s (sn_todo s) (sn_res s) SNext)) i now) as (U1 & U2 & U3).
  assert (N2 : nth_error (ct_send c2) t = Some (phase s (sn_todo s) (sn_res s) SNext)).
  { unfold c2, say. cbn [ct_send]. rewrite U2. cbn [put_send ct_send put_sess]. rewrite (nth_upd _ _ _ _ N), Nat.eqb_refl. reflexivity. }
  eexists. split.
  { cbn [crun]. rewrite S1. cbn [bind cstep]. rewrite N2. cbn [phase sn_ph sn_todo]. rewrite TD. reflexivity. }
  cbn [say put_send put_ca ct_log ct_ca sn_q sn_res phase]. split.
  - unfold c2, say. cbn [ct_log]. rewrite U3. cbn [put_send put_sess ct_log]. unfold on_wire in *. rewrite !fold_left_app. cbn [fold_left sw_step]. exact K.
  - unfold Query, saveQueryCache. cbn [ca_query ca_heap]. rewrite load_store_same by apply Z.eqb_refl.
    destruct (sn_res s) as [|p l] eqn:R; [reflexivity|]. split; [|discriminate].
    assert (DL : forall h l, (length (deref h l) <= length l)%nat).
    { clear. intros h. induction l as [|p l IH]; cbn [deref length]; [lia|]. destruct (nth_error h p); cbn [length]; lia. }
    apply DL.
Qed.

(** Refuted for every send about to choose a session: if the session it is given is closed
    before the write, the process crashes. *)
Theorem C92_refuted_crash : forall pr sessions es c t s i ss ac phone rest d now b key r ok,
  crun pr (cstart sessions) es = Ok c -> nth_error (ct_send c) t = Some s -> sn_ph s = SNext -> sn_todo s = phone :: rest ->
  nth_error (ct_sess c) i = Some ss -> HealthCheck ss = true -> cs_ac ss = Some ac ->
  segments (cs_p ss) (cp_gbe pr) ac phone (sn_msg s) (sn_ops s) d = Ok ((Ok b, key) :: r) ->
  crun pr c [CPick t (Some i) d now; CClose i; CWrite t ok now] = Panic.
Proof.
  intros pr sessions es c t s i ss ac phone rest d now b key r ok H N PH TD NS HC AC SG.
  assert (CO : cs_con ss = true /\ cs_stat ss = CLogin).
  { unfold HealthCheck in HC. destruct (cs_stat ss); try discriminate HC. destruct (cs_con ss); [auto|discriminate HC]. }
  destruct CO as [CO ST].
  assert (S1 : cstep pr c (CPick t (Some i) d now) = Ok (say (put_send c t (phase s rest (sn_res s) (SPart i phone ((Ok b, key) :: r) []))) [OPick t phone])).
  { cbn [cstep]. rewrite N, PH, TD, NS, HC, AC, SG. reflexivity. }
  cbn [crun]. rewrite S1. cbn [bind]. set (c1 := say _ _).
  assert (NS1 : nth_error (ct_sess c1) i = Some ss) by exact NS.
  assert (S2 : cstep pr c1 (CClose i) = Ok (put_sess c1 i (CSess (cs_p ss) CClosing false None (cs_pcnt ss) (cs_active ss)))).
  { cbn [cstep]. rewrite NS1. unfold Close. rewrite ST, CO. reflexivity. }
  rewrite S2. cbn [bind]. set (c2 := put_sess _ _ _).
  assert (N2 : nth_error (ct_send c2) t = Some (phase s rest (sn_res s) (SPart i phone ((Ok b, key) :: r) []))).
  { unfold c2, c1. cbn [put_sess say put_send ct_send]. rewrite (nth_upd _ _ _ _ N), Nat.eqb_refl. reflexivity. }
  assert (NS2 : nth_error (ct_sess c2) i = Some (CSess (cs_p ss) CClosing false None (cs_pcnt ss) (cs_active ss))).
  { unfold c2. cbn [put_sess ct_sess]. rewrite (nth_upd _ _ _ _ NS1), Nat.eqb_refl. reflexivity. }
  cbn [cstep]. rewrite N2. cbn [phase sn_ph]. rewrite NS2. reflexivity.
Qed.
(** While the session is open at the write no write, failing or not, crashes. *)
Theorem C92_write_partial : forall pr sessions es c t s i ss phone b key r done ok now,
  crun pr (cstart sessions) es = Ok c -> nth_error (ct_send c) t = Some s -> sn_ph s = SPart i phone ((Ok b, key) :: r) done ->
  nth_error (ct_sess c) i = Some ss ->
  (cs_con ss = true <-> exists c1, cstep pr c (CWrite t ok now) = Ok c1).
Proof.
  intros pr sessions es c t s i ss phone b key r done ok now H N PH NS. cbn [cstep]. rewrite N, PH, NS. unfold reply_with. split.
  - intros CO. rewrite CO. cbn [bind]. destruct ok; [eauto|]. unfold Close. rewrite CO. destruct (cs_stat ss); cbn [bind]; eauto.
  - intros (c1 & X). destruct (cs_con ss); [reflexivity|discriminate X].
Qed.

(** Non-vacuity: a text of two packets to two numbers, everything written: four packets on the
    wire, four results. *)
Definition long_demo : bytes := repeat 65 180.
Definition two_parts : list cevent := [CPick 0 (Some 0%nat) d_demo 5; CWrite 0 true 5; CRecord 0 6; CWrite 0 true 7; CRecord 0 8].
Example C92_case :
  match crun pr_demo (cstart [sess_demo P_SGIP]) ([CBegin 77 long_demo [] [[49;51;48]; [49;52]]] ++ two_parts ++ two_parts ++ [CDone 0]) with
  | Ok c => ~ broke 0 (ct_log c)
      /\ map fst (on_wire [P_SGIP] 0 (ct_log c)) = [[49;51;48]; [49;51;48]; [49;52]; [49;52]]
      /\ match Query (ct_ca c) 77 with Ok (Some rs) => map (fun r => (rt_phone r, rt_seq r)) rs = on_wire [P_SGIP] 0 (ct_log c) | _ => False end
  | _ => False
  end.
Proof.
  vm_compute. split; [|split; reflexivity]. intros (i & K). repeat (destruct K as [K|K]; [discriminate K|]). exact K.
Qed.
(** The write of the second part fails: one packet is on the wire, the query crashes.  The session
    is closed between choosing and writing: the send crashes. *)
Example C92_refuted_case :
  match crun pr_demo (cstart [sess_demo P_SGIP]) [CBegin 77 long_demo [] [[49;51;48]]; CPick 0 (Some 0%nat) d_demo 5; CWrite 0 true 5; CRecord 0 6] with
  | Ok c => (exists s i phone b key r p, nth_error (ct_send c) 0 = Some s /\ sn_ph s = SPart i phone ((Ok b, key) :: r) [p] /\ sn_todo s = [])
      /\ match crun pr_demo c [CWrite 0 false 7; CDone 0] with
         | Ok c1 => zlen (on_wire [P_SGIP] 0 (ct_log c1)) = 1 /\ Query (ct_ca c1) 77 = Panic | _ => False end
  | _ => False
  end
  /\ crun pr_demo (cstart [sess_demo P_SGIP]) [CBegin 77 long_demo [] [[49;51;48]]; CPick 0 (Some 0%nat) d_demo 5; CClose 0; CWrite 0 true 5] = Panic.
Proof.
  split; [|vm_compute; reflexivity]. vm_compute. split; [|split; reflexivity]. do 7 eexists. split; [reflexivity|]. split; reflexivity.
Qed.

Print Assumptions C92_shown_partial.
Print Assumptions C92_no_more.
Print Assumptions C92_refuted_lost.
Print Assumptions C92_refuted_crash.
Print Assumptions C92_write_partial.
